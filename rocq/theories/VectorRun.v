(** Histories of vector operations. *)
From stdpp Require Import gmap list.
From Coq Require Import ZArith Lia ZifyBool ZifyNat.
From Verif Require Import Base ObjModel ObjSpec ObjProofs VectorModel VectorSpec VectorProofs.
Local Open Scope Z_scope.
Local Open Scope outcome_scope.

Section run.
Context {A : Type} (esz : Z) (dflt : A) (smk : bool) (Hesz : 1 <= esz).
Notation mem := (mem A).
Notation store := (gmap nat (list A)).
Notation env := (gmap nat vec).
Notation vrep := (vrep esz).
Notation post := (post esz).
Implicit Types (m : mem) (s : store) (e : env) (l : list A).

Definition inv (M : Z) s e m : Prop :=
  fresh m /\
  (forall x, s !! x = None <-> e !! x = None) /\
  (forall x l v, s !! x = Some l -> e !! x = Some v -> exists cap, vrep v (Some <$> l) cap m /\ Z.of_nat cap <= 2 * M) /\
  (forall x y v w b, e !! x = Some v -> e !! y = Some w -> In b (own v) -> In b (own w) -> x = y) /\
  (forall b cs, blocks m !! b = Some cs -> cs = [] \/ exists x v, e !! x = Some v /\ In b (own v)).
Definition owns e (x : nat) : list nat := match e !! x with Some v => own v | None => [] end.

Lemma inv0 M : inv M ∅ ∅ mem0.
Proof.
  split; [intros b _; apply lookup_empty|]. split; [intros x; rewrite !lookup_empty; tauto|].
  split; [intros x l v H; rewrite lookup_empty in H; discriminate|].
  split; [intros x y v w b H; rewrite lookup_empty in H; discriminate|].
  intros b cs H. cbn in H. rewrite lookup_empty in H. discriminate.
Qed.
Lemma inv_env M s e m x l : inv M s e m -> s !! x = Some l -> exists v cap, e !! x = Some v /\ vrep v (Some <$> l) cap m /\ Z.of_nat cap <= 2 * M.
Proof.
  intros (_ & Hd & Hr & _) Hx. destruct (e !! x) as [v|] eqn:E.
  - destruct (Hr _ _ _ Hx E) as (cap & H1 & H2). eauto.
  - apply Hd in E. congruence.
Qed.
Lemma inv_lt M s e m x v b : inv M s e m -> e !! x = Some v -> In b (own v) -> (b < nextb m)%nat.
Proof.
  intros (Hf & Hd & Hr & _) Hx Hb. destruct (s !! x) as [l|] eqn:E; [|apply Hd in E; congruence].
  destruct (Hr _ _ _ E Hx) as (cap & H1 & _). destruct (vrep_own_some _ _ _ _ _ _ H1 Hb) as (cs & X).
  destruct (Nat.lt_ge_cases b (nextb m)) as [Y|Y]; [exact Y|]. rewrite (Hf _ Y) in X. discriminate.
Qed.

Lemma inv_put M s e m x l' v' cap' m' : inv M s e m -> fr (owns e x) m (own v') m' ->
  vrep v' (Some <$> l') cap' m' -> Z.of_nat cap' <= 2 * M -> inv M (<[x := l']> s) (<[x := v']> e) m'.
Proof.
  intros Hinv Hfr Hv Hc. pose proof Hinv as (Hf & Hd & Hr & Hdis & Hcov).
  assert (Hother : forall y w, y <> x -> e !! y = Some w -> forall b, In b (own w) -> ~ In b (owns e x)).
  { intros y w Hne Hy b Hb Hb'. unfold owns in Hb'. destruct (e !! x) as [v|] eqn:Ex; [|destruct Hb'].
    apply Hne. eapply Hdis; eassumption. }
  assert (Hnew : forall y w, y <> x -> e !! y = Some w -> forall b, In b (own w) -> ~ In b (own v')).
  { intros y w Hne Hy b Hb Hb'. pose proof (inv_lt _ _ _ _ _ _ _ Hinv Hy Hb) as Hlt.
    destruct Hfr as (_ & _ & H3 & _). exact (Hother _ _ Hne Hy _ Hb (H3 _ Hb' Hlt)). }
  split; [eapply fr_fresh; exact Hfr|]. split; [|split; [|split]].
  - intros y. destruct (decide (y = x)) as [->|Hne]; [rewrite !lookup_insert; split; discriminate|].
    rewrite !lookup_insert_ne by congruence. apply Hd.
  - intros y l v Hl Hy. destruct (decide (y = x)) as [->|Hne].
    + rewrite lookup_insert in Hl; rewrite lookup_insert in Hy. injection Hl as <-. injection Hy as <-. eauto.
    + rewrite lookup_insert_ne in Hl by congruence; rewrite lookup_insert_ne in Hy by congruence. destruct (Hr _ _ _ Hl Hy) as (cap & H1 & H2).
      exists cap. split; [|exact H2]. eapply vrep_keep; [exact Hf|exact Hfr| |exact H1]. eapply Hother; eassumption.
  - intros y z v w b Hy Hz Hb1 Hb2.
    destruct (decide (y = x)) as [->|Hy1], (decide (z = x)) as [->|Hz1].
    + reflexivity.
    + rewrite lookup_insert in Hy. injection Hy as <-. rewrite lookup_insert_ne in Hz by congruence.
      exfalso. exact (Hnew _ _ Hz1 Hz _ Hb2 Hb1).
    + rewrite lookup_insert in Hz. injection Hz as <-. rewrite lookup_insert_ne in Hy by congruence.
      exfalso. exact (Hnew _ _ Hy1 Hy _ Hb1 Hb2).
    + rewrite lookup_insert_ne in Hy by congruence; rewrite lookup_insert_ne in Hz by congruence. eapply Hdis; eassumption.
  - intros b cs Hb. destruct Hfr as (_ & _ & _ & H4 & _). destruct (H4 _ _ Hb) as [X|[X|[X Y]]].
    + right. exists x, v'. rewrite lookup_insert. auto.
    + left. exact X.
    + destruct (Hcov _ _ Y) as [Z|(y & w & Hy & Hw)]; [left; exact Z|right]. exists y, w. split; [|exact Hw].
      rewrite lookup_insert_ne; [exact Hy|]. intros <-. apply X. unfold owns. rewrite Hy. exact Hw.
Qed.
Lemma inv_del M s e m x v m' : inv M s e m -> e !! x = Some v -> fr (own v) m [] m' -> inv M (delete x s) (delete x e) m'.
Proof.
  intros Hinv Hx Hfr. pose proof Hinv as (Hf & Hd & Hr & Hdis & Hcov).
  split; [eapply fr_fresh; exact Hfr|]. split; [|split; [|split]].
  - intros y. destruct (decide (y = x)) as [->|Hne]; [rewrite !lookup_delete; tauto|].
    rewrite !lookup_delete_ne by congruence. apply Hd.
  - intros y l w Hl Hy. destruct (decide (y = x)) as [->|Hne]; [rewrite lookup_delete in Hl; discriminate|].
    rewrite lookup_delete_ne in Hl by congruence; rewrite lookup_delete_ne in Hy by congruence. destruct (Hr _ _ _ Hl Hy) as (cap & H1 & H2).
    exists cap. split; [|exact H2]. eapply vrep_keep; [exact Hf|exact Hfr| |exact H1].
    intros b Hb Hb'. apply Hne. eapply Hdis; eassumption.
  - intros y z w u b Hy Hz. apply lookup_delete_Some in Hy as [_ Hy]. apply lookup_delete_Some in Hz as [_ Hz]. eapply Hdis; eassumption.
  - intros b cs Hb. destruct Hfr as (_ & _ & _ & H4 & _). destruct (H4 _ _ Hb) as [X|[X|[X Y]]]; [destruct X|left; exact X|].
    destruct (Hcov _ _ Y) as [Z|(y & w & Hy & Hw)]; [left; exact Z|right]. exists y, w. split; [|exact Hw].
    rewrite lookup_delete_ne; [exact Hy|]. intros <-. rewrite Hx in Hy. injection Hy as ->. contradiction.
Qed.
Definition sw (x y a : nat) : nat := if Nat.eqb a x then y else if Nat.eqb a y then x else a.
Lemma sw_sw x y a : sw x y (sw x y a) = a.
Proof.
  unfold sw. destruct (Nat.eqb_spec a x) as [->|H1]; [destruct (Nat.eqb_spec y x) as [->|H]; [reflexivity|rewrite Nat.eqb_refl; reflexivity]|].
  destruct (Nat.eqb_spec a y) as [->|H2]; [rewrite Nat.eqb_refl; reflexivity|].
  destruct (Nat.eqb_spec a x); [contradiction|]. destruct (Nat.eqb_spec a y); [contradiction|reflexivity].
Qed.
Lemma sw_lookup {V} (g : gmap nat V) x y v w a : g !! x = Some v -> g !! y = Some w ->
  <[y := v]> (<[x := w]> g) !! a = g !! sw x y a.
Proof.
  intros Hx Hy. unfold sw. destruct (Nat.eqb_spec a x) as [->|H1].
  - destruct (decide (x = y)) as [->|Hn]; [rewrite lookup_insert; congruence|].
    rewrite lookup_insert_ne, lookup_insert by congruence. congruence.
  - destruct (Nat.eqb_spec a y) as [->|H2]; [rewrite lookup_insert; congruence|].
    rewrite !lookup_insert_ne by congruence. reflexivity.
Qed.
Lemma inv_swap M s e m x y l k v w : inv M s e m -> s !! x = Some l -> s !! y = Some k -> e !! x = Some v -> e !! y = Some w ->
  inv M (<[y := l]> (<[x := k]> s)) (<[y := v]> (<[x := w]> e)) m.
Proof.
  intros (Hf & Hd & Hr & Hdis & Hcov) Hl Hk Hv Hw. split; [exact Hf|]. split; [|split; [|split]].
  - intros a. rewrite (sw_lookup _ _ _ _ _ _ Hl Hk), (sw_lookup _ _ _ _ _ _ Hv Hw). apply Hd.
  - intros a la va. rewrite (sw_lookup _ _ _ _ _ _ Hl Hk), (sw_lookup _ _ _ _ _ _ Hv Hw). apply Hr.
  - intros a c va vc b. rewrite !(sw_lookup _ _ _ _ _ _ Hv Hw). intros Ha Hc Hb1 Hb2.
    rewrite <- (sw_sw x y a), <- (sw_sw x y c). f_equal. eapply Hdis; eassumption.
  - intros b cs Hb. destruct (Hcov _ _ Hb) as [X|(a & u & Ha & Hu)]; [left; exact X|right].
    exists (sw x y a), u. rewrite (sw_lookup _ _ _ _ _ _ Hv Hw), sw_sw. auto.
Qed.

Section step.
Context (M : Z) (HM : 2 * M * esz < 2 ^ 63).
Lemma fits_2M cap : Z.of_nat cap <= 2 * M -> fits esz cap.
Proof. unfold fits. nia. Qed.
Lemma grow_2M cap n : Z.of_nat cap <= 2 * M -> Z.of_nat n <= M -> Z.of_nat (growcap cap n) <= 2 * M.
Proof. unfold growcap. destruct (Nat.leb_spec n cap); lia. Qed.

Lemma step_declare s e m x l' r cap' : inv M s e m -> s !! x = None -> post [] m r (Some <$> l') cap' -> Z.of_nat cap' <= 2 * M ->
  exists e' m', declare e x r = Ok (e', m') /\ inv M (<[x := l']> s) e' m'.
Proof.
  intros Hinv Hx (v' & m' & E & Hv & Hfr) Hc. pose proof Hinv as (_ & Hd & _). apply Hd in Hx. unfold declare. rewrite Hx, E.
  cbn [obind]. eexists _, _. split; [reflexivity|]. eapply inv_put; [exact Hinv| |exact Hv|exact Hc].
  unfold owns. rewrite Hx. exact Hfr.
Qed.
Lemma step_update s e m x l l' g : inv M s e m -> s !! x = Some l ->
  (forall v cap, vrep v (Some <$> l) cap m -> fresh m -> Z.of_nat cap <= 2 * M -> zlen l <= zlen l ->
    exists cap', post (own v) m (g v) (Some <$> l') cap' /\ Z.of_nat cap' <= 2 * M) ->
  exists e' m', update e x g = Ok (e', m') /\ inv M (<[x := l']> s) e' m'.
Proof.
  intros Hinv Hx H. destruct (inv_env _ _ _ _ _ _ Hinv Hx) as (v & cap & Hv & Hr & Hc).
  destruct (H v cap Hr (proj1 Hinv) Hc) as (cap' & (v' & m' & E & Hv' & Hfr) & Hc'); [lia|].
  unfold update, var. rewrite Hv. cbn [of_option obind]. rewrite E. cbn [obind].
  eexists _, _. split; [reflexivity|]. eapply inv_put; [exact Hinv| |exact Hv'|exact Hc']. unfold owns. rewrite Hv. exact Hfr.
Qed.
Lemma on_Some s x f s' : on s x f = Some s' -> exists l l', s !! x = Some l /\ f l = Some l' /\ s' = <[x := l']> s.
Proof. unfold on. destruct (s !! x) as [l|]; [|discriminate]. destruct (f l) as [l'|] eqn:E; [|discriminate]. intros [= <-]. eauto. Qed.
Lemma new_Some s x l s' : new s x l = Some s' -> s !! x = None /\ s' = <[x := l]> s.
Proof. unfold new. destruct (s !! x); [discriminate|]. intros [= <-]. auto. Qed.
Lemma when_Some b l l' : when b l = Some l' -> b = true /\ l' = l.
Proof. unfold when. destruct b; [intros [= <-]; auto|discriminate]. Qed.
Lemma size_of s x l : sizes_ok M (<[x := l]> s) -> zlen l <= M.
Proof. intros H. apply (H x). apply lookup_insert. Qed.

Lemma step_move s e m x y l : inv M s e m -> s !! y = Some l -> (<[y := []]> s) !! x = None ->
  exists w, e !! y = Some w /\ (<[y := vec0]> e) !! x = None /\ inv M (<[x := l]> (<[y := []]> s)) (<[x := w]> (<[y := vec0]> e)) m.
Proof.
  intros Hinv Hy Hx. destruct (inv_env _ _ _ _ _ _ Hinv Hy) as (w & cap & Hw & Hr & Hc).
  assert (Hxy : x <> y) by (intros ->; rewrite lookup_insert in Hx; discriminate).
  rewrite lookup_insert_ne in Hx by congruence. pose proof Hinv as (Hf & Hd & _). pose proof Hx as Hx'. apply Hd in Hx'.
  exists w. split; [exact Hw|]. split; [rewrite lookup_insert_ne by congruence; exact Hx'|].
  assert (Hinv1 : inv M (<[x := []]> s) (<[x := vec0]> e) m).
  { assert (0 <= 2 * M) by lia. eapply (inv_put _ _ _ _ _ _ _ 0%nat); [exact Hinv| | |lia].
    - unfold owns. rewrite Hx'. apply fr_refl. exact Hf.
    - split; [apply fits_2M; lia|]. split; [cbn; lia|]. left. auto. }
  pose proof (inv_swap M _ _ _ x y [] l vec0 w Hinv1) as H.
  rewrite (insert_insert s), (insert_insert e) in H.
  rewrite (insert_commute s), (insert_commute e) by congruence.
  apply H; rewrite ?lookup_insert, ?lookup_insert_ne by congruence; auto.
Qed.

Lemma step_ok s e m c s' : inv M s e m -> sstep dflt smk s c = Some s' -> requested c <= M -> sizes_ok M s' ->
  exists e' m', vstep esz dflt smk (e, m) c = Ok (e', m') /\ inv M s' e' m'.
Proof.
  intros Hinv Hs Hreq Hsz. pose proof Hinv as (Hf & Hd & _).
  destruct c as [x|x l|x n a|x n|x y|x y|x|x a|x a|x i a|x i a|x a|x i a|x i|x i j|x|x|x n|x n|x|x y|x y|x y];
    cbn [sstep vstep requested] in *.
  - apply new_Some in Hs as [Hx ->]. eapply (step_declare _ _ _ _ _ _ 0%nat); [exact Hinv|exact Hx| |].
    + exists vec0, m. split; [reflexivity|]. split; [|apply fr_refl; exact Hf]. apply size_of in Hsz. cbn in Hsz.
      split; [apply fits_2M; lia|]. split; [cbn; lia|]. left. auto.
    + apply size_of in Hsz. cbn in Hsz. lia.
  - apply new_Some in Hs as [Hx ->]. pose proof (size_of _ _ _ Hsz) as Hl. unfold zlen in Hl.
    eapply step_declare; [exact Hinv|exact Hx| |]; [apply vinit_ok; [exact Hesz|exact Hf|apply fits_2M; lia]|lia].
  - destruct (Z.leb_spec 0 n) as [Hn|]; [|discriminate].
    apply new_Some in Hs as [Hx ->]. pose proof (size_of _ _ _ Hsz) as Hl. unfold zlen in Hl. rewrite replicate_length in Hl.
    eapply (step_declare _ _ _ _ _ _ (Z.to_nat n)); [exact Hinv|exact Hx| |lia].
    rewrite fmap_replicate. apply vfill_ok; [exact Hesz|exact Hn|exact Hf|apply fits_2M; lia].
  - destruct (Z.leb_spec 0 n) as [Hn|]; [|discriminate].
    apply new_Some in Hs as [Hx ->]. pose proof (size_of _ _ _ Hsz) as Hl. unfold zlen in Hl. rewrite replicate_length in Hl.
    eapply (step_declare _ _ _ _ _ _ (Z.to_nat n)); [exact Hinv|exact Hx| |lia].
    rewrite fmap_replicate. apply vfill_ok; [exact Hesz|exact Hn|exact Hf|apply fits_2M; lia].
  - destruct (s !! y) as [l|] eqn:Hy; [|discriminate]. apply new_Some in Hs as [Hx ->].
    destruct (inv_env _ _ _ _ _ _ Hinv Hy) as (w & cap & Hw & Hr & Hc). unfold var. rewrite Hw. cbn [of_option obind].
    pose proof (size_of _ _ _ Hsz) as Hl. unfold zlen in Hl.
    eapply step_declare; [exact Hinv|exact Hx|eapply vcopy_ok; [exact Hesz|exact Hr|exact Hf]|]. rewrite fmap_length. lia.
  - destruct (s !! y) as [l|] eqn:Hy; [|discriminate]. apply new_Some in Hs as [Hx ->].
    destruct (step_move _ _ _ _ _ _ Hinv Hy Hx) as (w & Hw & Hx' & Hinv').
    unfold var. rewrite Hw. cbn [of_option obind vmove vswap]. unfold declare. rewrite Hx'. cbn [obind].
    eexists _, _. split; [reflexivity|exact Hinv'].
  - destruct (s !! x) as [l|] eqn:Hx; [|discriminate]. injection Hs as <-.
    destruct (inv_env _ _ _ _ _ _ Hinv Hx) as (v & cap & Hv & Hr & Hc). unfold var. rewrite Hv. cbn [of_option obind].
    destruct (vdestroy_ok esz Hesz _ _ _ _ Hr Hf) as (m' & -> & Hfr & _). cbn [obind].
    eexists _, _. split; [reflexivity|]. eapply inv_del; eassumption.
  - apply on_Some in Hs as (l & l' & Hx & [= <-] & ->). pose proof (size_of _ _ _ Hsz) as Hl. unfold zlen in Hl. rewrite app_length in Hl. cbn in Hl.
    eapply step_update; [exact Hinv|exact Hx|]. intros v cap Hr _ Hc _.
    assert (Hg := grow_2M cap (S (length l)) Hc ltac:(lia)).
    destruct (push_back_ok esz Hesz a v _ cap m Hr Hf) as (v' & m' & E & Hr' & Hfr & _); rewrite fmap_length in *; [apply fits_2M; exact Hg|].
    eexists. split; [|exact Hg]. exists v', m'. rewrite fmap_app. auto.
  - apply on_Some in Hs as (l & l' & Hx & [= <-] & ->). pose proof (size_of _ _ _ Hsz) as Hl. unfold zlen in Hl. cbn [length] in Hl.
    eapply step_update; [exact Hinv|exact Hx|]. intros v cap Hr _ Hc _.
    assert (Hg := grow_2M cap (S (length l)) Hc ltac:(lia)).
    eexists. split; [|exact Hg].
    pose proof (push_front_ok esz dflt smk Hesz a v _ cap m Hr Hf) as H. rewrite fmap_length in H. apply H, fits_2M, Hg.
  - apply on_Some in Hs as (l & l' & Hx & Hw & ->). apply when_Some in Hw as [Hw ->].
    assert (Hi : 0 <= i <= zlen l) by lia. unfold zlen, ztake, zdrop in *.
    pose proof (size_of _ _ _ Hsz) as Hl. unfold zlen in Hl. rewrite app_length in Hl. cbn [length] in Hl. rewrite take_length, drop_length in Hl.
    eapply step_update; [exact Hinv|exact Hx|]. intros v cap Hr _ Hc _.
    assert (Hg := grow_2M cap (S (length l)) Hc ltac:(lia)).
    assert (Hlec : (length l <= cap)%nat) by (destruct Hr as (_ & X & _); rewrite fmap_length in X; exact X).
    destruct (padd_ok esz _ _ _ _ i Hr) as (p & Ep); [lia|]. rewrite Ep. cbn [obind].
    eexists. split; [|exact Hg].
    pose proof (insert_ok esz dflt smk Hesz i p a v _ cap m Hr Hf) as H. rewrite fmap_length in H.
    rewrite fmap_app, fmap_cons, fmap_take, fmap_drop. apply H; [lia|apply fits_2M, Hg|exact Ep].
  - apply on_Some in Hs as (l & l' & Hx & Hw & ->). apply when_Some in Hw as [Hw ->].
    assert (Hi : 0 <= i <= zlen l) by lia. unfold zlen, ztake, zdrop in *.
    pose proof (size_of _ _ _ Hsz) as Hl. unfold zlen in Hl. rewrite app_length in Hl. cbn [length] in Hl. rewrite take_length, drop_length in Hl.
    eapply step_update; [exact Hinv|exact Hx|]. intros v cap Hr _ Hc _.
    assert (Hg := grow_2M cap (S (length l)) Hc ltac:(lia)).
    assert (Hlec : (length l <= cap)%nat) by (destruct Hr as (_ & X & _); rewrite fmap_length in X; exact X).
    destruct (padd_ok esz _ _ _ _ i Hr) as (p & Ep); [lia|]. rewrite Ep. cbn [obind].
    eexists. split; [|exact Hg].
    pose proof (emplace_ok esz dflt smk Hesz i p a v _ cap m Hr Hf) as H. rewrite fmap_length in H.
    rewrite fmap_app, fmap_cons, fmap_take, fmap_drop. apply H; [lia|apply fits_2M, Hg|exact Ep].
  - apply on_Some in Hs as (l & l' & Hx & [= <-] & ->). pose proof (size_of _ _ _ Hsz) as Hl. unfold zlen in Hl. rewrite app_length in Hl. cbn in Hl.
    eapply step_update; [exact Hinv|exact Hx|]. intros v cap Hr _ Hc _.
    assert (Hg := grow_2M cap (S (length l)) Hc ltac:(lia)).
    destruct (push_back_ok esz Hesz a v _ cap m Hr Hf) as (v' & m' & E & Hr' & Hfr & _); rewrite fmap_length in *; [apply fits_2M; exact Hg|].
    eexists. split; [|exact Hg]. exists v', m'. rewrite fmap_app. auto.
  - apply on_Some in Hs as (l & l' & Hx & Hw & ->). apply when_Some in Hw as [Hw ->].
    assert (Hi : 0 <= i < zlen l) by lia. unfold zlen, ztake, zdrop in *.
    eapply step_update; [exact Hinv|exact Hx|]. intros v cap Hr _ Hc _.
    destruct (set_ok esz i a v _ cap m Hr Hf) as (m' & E & Hr' & Hfr); [rewrite fmap_length; lia|].
    rewrite E. cbn [obind]. exists cap. split; [|exact Hc]. exists v, m'. split; [reflexivity|]. split; [|exact Hfr].
    rewrite fmap_app, fmap_cons, fmap_take, fmap_drop. replace (Z.to_nat (i + 1)) with (S (Z.to_nat i)) by lia. exact Hr'.
  - apply on_Some in Hs as (l & l' & Hx & Hw & ->). apply when_Some in Hw as [Hw ->].
    assert (Hi : 0 <= i < zlen l) by lia. unfold zlen, ztake, zdrop in *.
    eapply step_update; [exact Hinv|exact Hx|]. intros v cap Hr _ Hc _.
    assert (Hlec : (length l <= cap)%nat) by (destruct Hr as (_ & X & _); rewrite fmap_length in X; exact X).
    destruct (padd_ok esz _ _ _ _ i Hr) as (p & Ep); [lia|]. rewrite Ep. cbn [obind].
    exists cap. split; [|exact Hc]. rewrite fmap_app, fmap_take, fmap_drop. replace (Z.to_nat (i + 1)) with (S (Z.to_nat i)) by lia.
    apply erase_ok; [exact Hesz|exact Hr|exact Hf|rewrite fmap_length; lia|exact Ep].
  - apply on_Some in Hs as (l & l' & Hx & Hw & ->). apply when_Some in Hw as [Hw ->].
    assert (Hi : 0 <= i <= j /\ j <= zlen l /\ (smk = true \/ i < j \/ j = zlen l)).
    { apply andb_true_iff in Hw as [Hw Ho]. split; [lia|]. split; [lia|]. destruct smk; [left; reflexivity|right]. lia. }
    destruct Hi as (Hi & Hj & Ho). unfold zlen, ztake, zdrop in *.
    eapply step_update; [exact Hinv|exact Hx|]. intros v cap Hr _ Hc _.
    assert (Hlec : (length l <= cap)%nat) by (destruct Hr as (_ & X & _); rewrite fmap_length in X; exact X).
    destruct (padd_ok esz _ _ _ _ i Hr) as (p & Ep); [lia|]. destruct (padd_ok esz _ _ _ _ j Hr) as (q & Eq); [lia|].
    rewrite Ep. cbn [obind]. rewrite Eq. cbn [obind]. exists cap. split; [|exact Hc]. rewrite fmap_app, fmap_take, fmap_drop.
    apply erase_range_ok; try assumption; rewrite fmap_length; assumption.
  - apply on_Some in Hs as (l & l' & Hx & Hw & ->). apply when_Some in Hw as [Hw ->]. unfold zlen, ztake in *.
    eapply step_update; [exact Hinv|exact Hx|]. intros v cap Hr _ Hc _. exists cap. split; [|exact Hc].
    destruct l as [|a l] using rev_ind; [cbn in Hw; lia|]. clear IHl. rewrite app_length in *. cbn [length] in *.
    replace (Z.to_nat (Z.of_nat (length l + 1) - 1)) with (length l) by lia. rewrite stdpp.list.take_app.
    rewrite fmap_app in Hr. eapply pop_back_ok; [exact Hesz|exact Hr|exact Hf].
  - apply on_Some in Hs as (l & l' & Hx & Hw & ->). apply when_Some in Hw as [Hw ->]. unfold zlen, zdrop in *.
    eapply step_update; [exact Hinv|exact Hx|]. intros v cap Hr _ Hc _. exists cap. split; [|exact Hc].
    destruct l as [|a l]; [cbn in Hw; lia|]. cbn in Hr. eapply pop_front_ok; [exact Hesz|exact Hr|exact Hf].
  - apply on_Some in Hs as (l & l' & Hx & Hw & ->). apply when_Some in Hw as [Hw ->].
    pose proof (size_of _ _ _ Hsz) as Hl. unfold pad, zlen, ztake in *. rewrite app_length, take_length, replicate_length in Hl.
    eapply step_update; [exact Hinv|exact Hx|]. intros v cap Hr _ Hc _.
    assert (Hg := grow_2M cap (Z.to_nat n) Hc ltac:(lia)).
    destruct (resize_ok esz dflt Hesz n v _ cap m Hr Hf) as (cap' & Hp & Hcap'); [lia|apply fits_2M; exact Hg|].
    exists cap'. split; [|destruct Hcap' as [-> | ->]; assumption].
    unfold opad in Hp. rewrite fmap_length in Hp. rewrite fmap_app, fmap_take, fmap_replicate.
    replace (Z.to_nat (n - Z.of_nat (length l))) with (Z.to_nat n - length l)%nat by lia. exact Hp.
  - apply on_Some in Hs as (l & l' & Hx & Hw & ->). apply when_Some in Hw as [Hw ->].
    eapply step_update; [exact Hinv|exact Hx|]. intros v cap Hr _ Hc _.
    assert (Hg := grow_2M cap (Z.to_nat n) Hc ltac:(lia)). exists (growcap cap (Z.to_nat n)). split; [|exact Hg].
    unfold reserve, ensure.
    destruct (ensure_ok esz Hesz 0 n v _ cap m Hr Hf) as (v' & m' & E & Hr' & Hfr & _); [lia|apply fits_2M; exact Hg|].
    exists v', m'. auto.
  - apply on_Some in Hs as (l & l' & Hx & [= <-] & ->).
    eapply step_update; [exact Hinv|exact Hx|]. intros v cap Hr _ Hc _. exists cap. split; [|exact Hc].
    eapply clear_ok; [exact Hesz|exact Hr|exact Hf].
  - destruct (s !! y) as [l|] eqn:Hy; [|discriminate]. apply on_Some in Hs as (k & l' & Hx & [= <-] & ->).
    destruct (inv_env _ _ _ _ _ _ Hinv Hy) as (w & cap & Hw & Hr & Hc). unfold var at 1. rewrite Hw. cbn [of_option obind].
    pose proof (size_of _ _ _ Hsz) as Hl. unfold zlen in Hl.
    eapply step_update; [exact Hinv|exact Hx|]. intros v cap' Hr' _ Hc' _. eexists.
    split; [eapply copy_assign_ok; [exact Hesz|exact Hr'|exact Hr|exact Hf]|]. rewrite fmap_length. lia.
  - destruct (s !! y) as [l|] eqn:Hy; [|discriminate]. apply on_Some in Hs as (k & l' & Hx & [= <-] & ->).
    set (z := base.fresh (dom (<[y := []]> s))).
    assert (Hz : (<[y := []]> s) !! z = None) by (apply not_elem_of_dom, is_fresh).
    assert (Hzx : z <> x) by (intros ->; rewrite Hx in Hz; discriminate).
    destruct (step_move _ _ _ z y _ Hinv Hy Hz) as (w & Hw & Hz' & Hinv1).
    unfold var. rewrite Hw. cbn [of_option obind vmove vswap].
    assert (Hx1 : (<[z := l]> (<[y := []]> s)) !! x = Some k) by (rewrite lookup_insert_ne by congruence; exact Hx).
    destruct (inv_env _ _ _ _ _ _ Hinv1 Hx1) as (v & cap & Hv & Hr & Hc).
    pose proof Hv as Hv'. rewrite lookup_insert_ne in Hv' by congruence. rewrite Hv'. cbn [of_option obind].
    destruct (vdestroy_ok esz Hesz _ _ _ _ Hr Hf) as (m' & -> & Hfr & _). cbn [obind].
    eexists _, _. split; [reflexivity|].
    assert (Hzl : (<[z := l]> (<[y := []]> s)) !! z = Some l) by apply lookup_insert.
    assert (Hzw : (<[z := w]> (<[y := vec0]> e)) !! z = Some w) by apply lookup_insert.
    pose proof (inv_swap _ _ _ _ _ _ _ _ _ _ Hinv1 Hx1 Hzl Hv Hzw) as Hinv2.
    pose proof (inv_del _ _ _ _ z v m' Hinv2 (lookup_insert _ _ _) Hfr) as H.
    rewrite !delete_insert_delete in H. rewrite !(delete_insert_ne _ _ x) in H by congruence.
    rewrite !delete_insert in H by assumption. exact H.
  - destruct (s !! x) as [l|] eqn:Hx; [|discriminate]. destruct (s !! y) as [k|] eqn:Hy; [|discriminate]. injection Hs as <-.
    destruct (inv_env _ _ _ _ _ _ Hinv Hx) as (v & cap & Hv & _). destruct (inv_env _ _ _ _ _ _ Hinv Hy) as (w & cap' & Hw & _).
    unfold var. rewrite Hv, Hw. cbn [of_option obind vswap]. eexists _, _. split; [reflexivity|].
    eapply inv_swap; eassumption.
Qed.

Lemma run_ok cs : forall s e m s', inv M s e m -> srun dflt smk s cs = Some s' -> within dflt smk M s cs ->
  exists e' m', vrun esz dflt smk (e, m) cs = Ok (e', m') /\ inv M s' e' m'.
Proof.
  induction cs as [|c cs IH]; intros s e m s' Hinv Hs Hw; cbn [srun vrun within] in *.
  - injection Hs as <-. eauto.
  - destruct (sstep dflt smk s c) as [s1|] eqn:E; [|discriminate]. destruct Hw as [Hreq Hw].
    destruct (Hw _ eq_refl) as [Hsz Hw1].
    destruct (step_ok _ _ _ _ _ Hinv E Hreq Hsz) as (e1 & m1 & E1 & Hinv1). rewrite E1. cbn [obind]. eauto.
Qed.
End step.

(** ** What is seen *)
Lemma iterate_ok fuel : forall os m b (pre post : list (cell A)) i j, (length os < fuel)%nat ->
  blocks m !! b = Some (pre ++ (Live <$> os) ++ post) -> i = Z.of_nat (length pre) -> j = Z.of_nat (length pre + length os) ->
  iterate fuel (Ptr b i) (Ptr b j) m = Ok os.
Proof.
  induction fuel as [|f IH]; intros os m b pre post0 i j Hl Hb Hi Hj; [lia|]. cbn [iterate].
  destruct os as [|x os]; cbn [length] in *.
  - replace (ptr_eqb (Ptr b i) (Ptr b j)) with true by (symmetry; apply ptr_eqb_eq; f_equal; lia). reflexivity.
  - replace (ptr_eqb (Ptr b i) (Ptr b j)) with false
      by (symmetry; apply not_true_iff_false; rewrite ptr_eqb_eq; intros [= X]; lia).
    cbn [fmap list_fmap app] in Hb. rewrite (load_app _ _ _ _ _ _ Hb Hi). cbn [obind padd].
    rewrite (IH os m b (pre ++ [Live x]) post0 (i + 1) j); [reflexivity|lia| |rewrite app_length; cbn; lia|rewrite app_length; cbn; lia].
    rewrite <- app_assoc. exact Hb.
Qed.
Lemma vget_ok v os cap m i x : vrep v os cap m -> os !! i = Some x -> vget (Z.of_nat i) v m = Ok x.
Proof.
  intros (_ & _ & [(_ & -> & _)|(b & -> & Hb)]) Hx; [rewrite lookup_nil in Hx; discriminate|].
  unfold vget. cbn [mkv vstart padd obind]. rewrite Z.add_0_l.
  assert (Hlt : (i < length os)%nat) by (eapply lookup_lt_Some; exact Hx).
  unfold slots in Hb. rewrite <- (take_drop_middle os i x Hx) in Hb at 1. rewrite fmap_app, fmap_cons, <- app_assoc in Hb.
  eapply load_app; [exact Hb|]. rewrite fmap_length, take_length. lia.
Qed.
Lemma shows_ok v l cap m : vrep v (Some <$> l) cap m -> shows v m l.
Proof.
  intros Hr. assert (Hs : vsize v = Ok (zlen l)).
  { rewrite (vsize_ok esz Hesz _ _ _ _ Hr), fmap_length. reflexivity. }
  split; [exact Hs|]. split; [unfold vempty; rewrite Hs; reflexivity|].
  assert (Hget : forall i a, l !! i = Some a -> vget (Z.of_nat i) v m = Ok (Some a)).
  { intros i a Hi. eapply vget_ok; [exact Hr|]. rewrite list_lookup_fmap, Hi. reflexivity. }
  split; [|split; [exact Hget|split]].
  - unfold viter. rewrite Hs. cbn [obind]. unfold zlen. rewrite Nat2Z.id.
    destruct Hr as (_ & _ & [(-> & X & _)|(b & -> & Hb)]); [rewrite X; reflexivity|].
    rewrite fmap_length in *. cbn [mkv vstart vfinish].
    eapply (iterate_ok _ _ m b []); [|exact Hb|reflexivity|]; cbn; rewrite fmap_length; lia.
  - intros a Ha. destruct l as [|c l]; [discriminate|]. injection Ha as ->.
    rewrite <- (Hget 0%nat a eq_refl). unfold vget, vfront.
    destruct Hr as (_ & _ & [(_ & X & _)|(b & -> & Hb)]); [discriminate|]. reflexivity.
  - intros a Ha. destruct l as [|c l] using rev_ind; [discriminate|]. rewrite last_snoc in Ha. injection Ha as ->. clear IHl.
    rewrite <- (Hget (length l) a) by (rewrite lookup_app_r, Nat.sub_diag by lia; reflexivity).
    unfold vget, vback. destruct Hr as (_ & _ & [(_ & X & _)|(b & -> & Hb)]).
    { rewrite fmap_app in X. destruct l; discriminate X. }
    cbn [mkv vstart vfinish padd obind]. rewrite fmap_length, app_length. cbn [length]. do 2 f_equal. lia.
Qed.

Lemma eq_loop_ok (eqb : A -> A -> bool) (Heq : forall a b, eqb a b = true <-> a = b) fuel : forall (i : nat) l k m v w c d,
  vrep v (Some <$> l) c m -> vrep w (Some <$> k) d m -> length l = length k -> (length l - i < fuel)%nat ->
  zlen l < 2 ^ 31 -> (i <= length l)%nat ->
  exists r, eq_loop eqb fuel (Z.of_nat i) (zlen l) v w m = Ok r /\ (r = true <-> drop i l = drop i k).
Proof.
  induction fuel as [|f IH]; intros i l k m v w c d Hv Hw Hlen Hf Hlt Hi; [lia|]. cbn [eq_loop]. unfold zlen in *.
  destruct (Z.ltb_spec (Z.of_nat i) (Z.of_nat (length l))) as [H|H].
  - destruct (lookup_lt_is_Some_2 l i) as [a Ha]; [lia|]. destruct (lookup_lt_is_Some_2 k i) as [b Hb]; [lia|].
    rewrite (vget_ok _ _ _ _ _ (Some a) Hv) by (rewrite list_lookup_fmap, Ha; reflexivity).
    rewrite (vget_ok _ _ _ _ _ (Some b) Hw) by (rewrite list_lookup_fmap, Hb; reflexivity). cbn [obind elem_eq].
    rewrite (drop_S l a i Ha), (drop_S k b i Hb). destruct (eqb a b) eqn:E.
    + apply Heq in E as ->. replace (Z.of_nat i + 1 <? 2 ^ 31) with true by lia.
      destruct (IH (S i) l k m v w c d) as (r & Er & Hr); try assumption; [lia|lia|].
      replace (Z.of_nat i + 1) with (Z.of_nat (S i)) by lia. exists r. split; [exact Er|]. rewrite Hr. split; [intros ->; reflexivity|congruence].
    + exists false. split; [reflexivity|]. split; [discriminate|]. intros X. injection X as -> _.
      assert (eqb b b = true) by (apply Heq; reflexivity). congruence.
  - exists true. split; [reflexivity|]. rewrite !drop_ge by lia. tauto.
Qed.
Lemma vequal_ok (eqb : A -> A -> bool) (Heq : forall a b, eqb a b = true <-> a = b) l k m v w c d :
  vrep v (Some <$> l) c m -> vrep w (Some <$> k) d m -> zlen l < 2 ^ 31 ->
  exists r, vequal eqb v w m = Ok r /\ (r = true <-> l = k).
Proof.
  intros Hv Hw Hl. unfold vequal. rewrite (vsize_ok esz Hesz _ _ _ _ Hv), (vsize_ok esz Hesz _ _ _ _ Hw), !fmap_length. cbn [obind].
  destruct (Z.eqb_spec (Z.of_nat (length l)) (Z.of_nat (length k))) as [H|H].
  - rewrite Nat2Z.id.
    destruct (eq_loop_ok eqb Heq (S (length l)) 0 l k m v w c d Hv Hw) as (r & E & Hr); [lia|lia|exact Hl|lia|].
    exists r. auto.
  - exists false. split; [reflexivity|]. split; [discriminate|]. intros ->. lia.
Qed.
(** Two equal vectors of 2^31 elements or more: the int counter overflows. *)
Lemma eq_loop_big (eqb : A -> A -> bool) (Heq : forall a b, eqb a b = true <-> a = b) fuel : forall (i : nat) l m v w c d,
  vrep v (Some <$> l) c m -> vrep w (Some <$> l) d m -> 2 ^ 31 <= zlen l -> Z.of_nat i < 2 ^ 31 -> 2 ^ 31 - Z.of_nat i <= Z.of_nat fuel ->
  eq_loop eqb fuel (Z.of_nat i) (zlen l) v w m = UB.
Proof.
  induction fuel as [|f IH]; intros i l m v w c d Hv Hw Hl Hi Hf; [lia|]. cbn [eq_loop]. unfold zlen in *.
  replace (Z.of_nat i <? Z.of_nat (length l)) with true by lia.
  destruct (lookup_lt_is_Some_2 l i) as [a Ha]; [lia|].
  rewrite (vget_ok _ _ _ _ _ (Some a) Hv) by (rewrite list_lookup_fmap, Ha; reflexivity).
  rewrite (vget_ok _ _ _ _ _ (Some a) Hw) by (rewrite list_lookup_fmap, Ha; reflexivity). cbn [obind elem_eq].
  replace (eqb a a) with true by (symmetry; apply Heq; reflexivity).
  destruct (Z.ltb_spec (Z.of_nat i + 1) (2 ^ 31)) as [H|H]; [|reflexivity].
  replace (Z.of_nat i + 1) with (Z.of_nat (S i)) by lia. eapply IH; try eassumption; lia.
Qed.
Lemma vequal_big (eqb : A -> A -> bool) (Heq : forall a b, eqb a b = true <-> a = b) l m v w c d :
  vrep v (Some <$> l) c m -> vrep w (Some <$> l) d m -> 2 ^ 31 <= zlen l -> vequal eqb v w m = UB.
Proof.
  intros Hv Hw Hl. unfold vequal. rewrite (vsize_ok esz Hesz _ _ _ _ Hv), (vsize_ok esz Hesz _ _ _ _ Hw), !fmap_length. cbn [obind].
  rewrite Z.eqb_refl, Nat2Z.id. unfold zlen in Hl. change 0 with (Z.of_nat 0).
  change (Z.of_nat (length l)) with (zlen l). eapply (eq_loop_big eqb Heq); try eassumption; unfold zlen; lia.
Qed.

(** ** Every operation is a sequence of primitive steps *)
Ltac to_reach := repeat match goal with
  | H : alloc_buf _ _ _ = Ok _ |- _ => apply prim_alloc in H; apply reach1 in H
  | H : free_buf _ _ = Ok _ |- _ => apply prim_free in H; apply reach1 in H
  | H : ctor _ _ _ = Ok _ |- _ => apply prim_ctor in H; apply reach1 in H
  | H : dtor _ _ = Ok _ |- _ => apply prim_dtor in H; apply reach1 in H
  | H : assign _ _ _ = Ok _ |- _ => apply prim_assign in H; apply reach1 in H
  | H : take_from _ _ = Ok _ |- _ => apply prim_take in H; apply reach1 in H
  | H : move_assign _ _ _ _ = Ok _ |- _ => apply reach_move_assign in H
  | H : read_arg _ _ = Ok _ |- _ => apply reach_read_arg in H
  | H : destroy_range _ _ _ _ = Ok _ |- _ => apply reach_destroy_range in H
  end.
Ltac chain := solve [repeat first [eassumption | apply reach_refl | eapply reach_trans; [eassumption|]]].
Ltac rch := intros; inv_ok; to_reach; chain.

Lemma reach_vallocate n m v m' : vallocate esz n m = Ok (v, m') -> reach m m'.
Proof. unfold vallocate. rch. Qed.
Lemma reach_vdestroy v m m' : vdestroy v m = Ok m' -> reach m m'.
Proof. unfold vdestroy. rch. Qed.
Definition preserving (f : vec -> mem -> outcome (vec * mem)) : Prop := forall v m v' m', f v m = Ok (v', m') -> reach m m'.
Lemma reach_push_with ec a : (forall n, preserving (ec n)) -> preserving (push_back_with ec a).
Proof.
  intros Hec v m v' m' H. unfold push_back_with in H. inv_ok. apply Hec in E0. to_reach. chain.
Qed.
Lemma reach_move_elems fuel pb : (forall a, preserving (pb a)) -> forall it last v m v' m', move_elems fuel pb it last v m = Ok (v', m') -> reach m m'.
Proof.
  intros Hpb. induction fuel as [|f IH]; intros it last v m v' m'; cbn [move_elems]; [discriminate|].
  destruct (ptr_eqb it last); intros H; inv_ok; [constructor|]. apply Hpb in E. apply IH in H. chain.
Qed.
Lemma reach_ensure_cap fuel : forall n, preserving (ensure_capacity esz fuel n).
Proof.
  induction fuel as [|f IH]; intros n v m v' m' H; cbn [ensure_capacity] in H; [discriminate|].
  unfold vswap in H. inv_ok; [constructor|].
  repeat match goal with
  | H : vallocate _ _ _ = Ok _ |- _ => apply reach_vallocate in H
  | H : vdestroy _ _ = Ok _ |- _ => apply reach_vdestroy in H
  | H : move_elems _ _ _ _ _ _ = Ok _ |- _ =>
      apply reach_move_elems in H; [|intros a; apply reach_push_with; exact IH]
  end. chain.
Qed.
Lemma reach_ensure n : preserving (ensure esz n).
Proof. apply reach_ensure_cap. Qed.
Lemma reach_push_back a : preserving (push_back esz a).
Proof. apply reach_push_with, reach_ensure. Qed.
Lemma reach_push_all l : preserving (push_all esz l).
Proof.
  induction l as [|a l IH]; intros v m v' m' H; cbn [push_all] in H; inv_ok; [constructor|].
  apply reach_push_back in E. apply IH in H. chain.
Qed.
Lemma reach_construct_n a k : forall p m m', construct_n k p a m = Ok m' -> reach m m'.
Proof. induction k as [|k IH]; intros p m m' H; cbn [construct_n] in H; inv_ok; [constructor|]. apply IH in H. to_reach. chain. Qed.
Lemma reach_copy_elems fuel : forall it last v m v' m', copy_elems fuel it last v m = Ok (v', m') -> reach m m'.
Proof.
  induction fuel as [|f IH]; intros it last v m v' m'; cbn [copy_elems]; [discriminate|].
  destruct (ptr_eqb it last); intros H; inv_ok; [constructor|]. apply IH in H. to_reach. chain.
Qed.
Lemma reach_shift_up k : forall p i m m', shift_up smk k p i m = Ok m' -> reach m m'.
Proof. induction k as [|k IH]; intros s i m m' H; cbn [shift_up] in H; inv_ok; [constructor|]. apply IH in H. to_reach. chain. Qed.
Lemma reach_shift_down k : forall p i j m m', shift_down smk k p i j m = Ok m' -> reach m m'.
Proof. induction k as [|k IH]; intros s i j m m' H; cbn [shift_down] in H; inv_ok; [|constructor]. apply IH in H. to_reach. chain. Qed.
Lemma reach_shift_range k : forall p i j m m', shift_range smk k p i j m = Ok m' -> reach m m'.
Proof. induction k as [|k IH]; intros s i j m m' H; cbn [shift_range] in H; inv_ok; [constructor|]. apply IH in H. to_reach. chain. Qed.
Lemma reach_destroy_n k : forall p m m', destroy_n k p m = Ok m' -> reach m m'.
Proof. induction k as [|k IH]; intros p m m' H; cbn [destroy_n] in H; inv_ok; [constructor|]. apply IH in H. to_reach. chain. Qed.
Lemma reach_destroy_back k : forall p m m', destroy_back k p m = Ok m' -> reach m m'.
Proof. induction k as [|k IH]; intros p m m' H; cbn [destroy_back] in H; inv_ok; [constructor|]. apply IH in H. to_reach. chain. Qed.

Ltac to_reach2 := repeat match goal with
  | H : vallocate _ _ _ = Ok _ |- _ => apply reach_vallocate in H
  | H : vdestroy _ _ = Ok _ |- _ => apply reach_vdestroy in H
  | H : ensure _ _ _ _ = Ok _ |- _ => apply reach_ensure in H
  | H : push_back _ _ _ _ = Ok _ |- _ => apply reach_push_back in H
  | H : push_all _ _ _ _ = Ok _ |- _ => apply reach_push_all in H
  | H : construct_n _ _ _ _ = Ok _ |- _ => apply reach_construct_n in H
  | H : copy_elems _ _ _ _ _ = Ok _ |- _ => apply reach_copy_elems in H
  | H : shift_up _ _ _ _ _ = Ok _ |- _ => apply reach_shift_up in H
  | H : shift_down _ _ _ _ _ _ = Ok _ |- _ => apply reach_shift_down in H
  | H : shift_range _ _ _ _ _ _ = Ok _ |- _ => apply reach_shift_range in H
  | H : destroy_n _ _ _ = Ok _ |- _ => apply reach_destroy_n in H
  | H : destroy_back _ _ _ = Ok _ |- _ => apply reach_destroy_back in H
  end.
Ltac rch2 := intros; inv_ok; to_reach; to_reach2; chain.

Lemma reach_step_cmd c e m e' m' : vstep esz dflt smk (e, m) c = Ok (e', m') -> reach m m'.
Proof.
  destruct c; cbn [vstep]; unfold copy_assign, declare, update, vinit, vsized, vfill, vcopy, vmove, vswap, emplace_back, push_front, insert_at, emplace_at, vset,
    pop_back, pop_front, erase_at, erase_range, resize, reserve, vclear; intros H;
  repeat (inv_ok; match goal with K : (match ?t with Some _ => UB | None => _ end = Ok _) |- _ => destruct t; [discriminate K|] end);
  rch2.
Qed.
Lemma reach_run cs : forall e m e' m', vrun esz dflt smk (e, m) cs = Ok (e', m') -> reach m m'.
Proof.
  induction cs as [|c cs IH]; intros e m e' m' H; cbn [vrun] in H; inv_ok; [constructor|].
  destruct r as [e1 m1]. apply reach_step_cmd in E. apply IH in H. chain.
Qed.
Lemma run_coh cs e' m' : vrun esz dflt smk (∅, mem0) cs = Ok (e', m') -> coh m'.
Proof. intros H. eapply coh_reach; [eapply reach_run; exact H|apply coh0]. Qed.
End run.
