(** Histories of vector operations, right or wrong. *)
From stdpp Require Import gmap list.
From Coq Require Import ZArith Lia ZifyBool ZifyNat.
From Verif Require Import Base ObjModel ObjSpec ObjProofs VectorModel VectorSpec VectorProofs VectorRun VectorExactSpec VectorWrong.
Local Open Scope Z_scope.
Local Open Scope outcome_scope.

Section run.
Context {A : Type} (esz : Z) (dflt : A) (smk : bool) (Hesz : 1 <= esz).
Notation mem := (mem A).
Notation store := (gmap nat (list (option A))).
Notation env := (gmap nat vec).
Notation vrep := (vrep esz).
Notation post := (post esz).
Implicit Types (m : mem) (s : store) (e : env) (l : list (option A)).

Definition xinv (M : Z) s e m : Prop :=
  fresh m /\
  (forall x, s !! x = None <-> e !! x = None) /\
  (forall x l v, s !! x = Some l -> e !! x = Some v -> exists cap, vrep v l cap m /\ Z.of_nat cap <= 2 * M) /\
  (forall x y v w b, e !! x = Some v -> e !! y = Some w -> In b (own v) -> In b (own w) -> x = y) /\
  (forall b cs, blocks m !! b = Some cs -> cs = [] \/ exists x v, e !! x = Some v /\ In b (own v)).
Lemma xinv0 M : xinv M ∅ ∅ mem0.
Proof.
  split; [intros b _; apply lookup_empty|]. split; [intros x; rewrite !lookup_empty; tauto|].
  split; [intros x l v H; rewrite lookup_empty in H; discriminate|].
  split; [intros x y v w b H; rewrite lookup_empty in H; discriminate|].
  intros b cs H. cbn in H. rewrite lookup_empty in H. discriminate.
Qed.
Lemma xinv_env M s e m x l : xinv M s e m -> s !! x = Some l -> exists v cap, e !! x = Some v /\ vrep v l cap m /\ Z.of_nat cap <= 2 * M.
Proof.
  intros (_ & Hd & Hr & _) Hx. destruct (e !! x) as [v|] eqn:E.
  - destruct (Hr _ _ _ Hx E) as (cap & H1 & H2). eauto.
  - apply Hd in E. congruence.
Qed.
Lemma xinv_lt M s e m x v b : xinv M s e m -> e !! x = Some v -> In b (own v) -> (b < nextb m)%nat.
Proof.
  intros (Hf & Hd & Hr & _) Hx Hb. destruct (s !! x) as [l|] eqn:E; [|apply Hd in E; congruence].
  destruct (Hr _ _ _ E Hx) as (cap & H1 & _). destruct (vrep_own_some _ _ _ _ _ _ H1 Hb) as (cs & X).
  destruct (Nat.lt_ge_cases b (nextb m)) as [Y|Y]; [exact Y|]. rewrite (Hf _ Y) in X. discriminate.
Qed.

Lemma xinv_put M s e m x l' v' cap' m' : xinv M s e m -> fr (owns e x) m (own v') m' ->
  vrep v' l' cap' m' -> Z.of_nat cap' <= 2 * M -> xinv M (<[x := l']> s) (<[x := v']> e) m'.
Proof.
  intros Hinv Hfr Hv Hc. pose proof Hinv as (Hf & Hd & Hr & Hdis & Hcov).
  assert (Hother : forall y w, y <> x -> e !! y = Some w -> forall b, In b (own w) -> ~ In b (owns e x)).
  { intros y w Hne Hy b Hb Hb'. unfold owns in Hb'. destruct (e !! x) as [v|] eqn:Ex; [|destruct Hb'].
    apply Hne. eapply Hdis; eassumption. }
  assert (Hnew : forall y w, y <> x -> e !! y = Some w -> forall b, In b (own w) -> ~ In b (own v')).
  { intros y w Hne Hy b Hb Hb'. pose proof (xinv_lt _ _ _ _ _ _ _ Hinv Hy Hb) as Hlt.
    destruct Hfr as (_ & _ & H3 & _). exact (Hother _ _ Hne Hy _ Hb (H3 _ Hb' Hlt)). }
  split; [eapply fr_fresh; exact Hfr|]. split; [|split; [|split]].
  - intros y. destruct (decide (y = x)) as [->|Hne]; [rewrite !lookup_insert; split; discriminate|].
    rewrite !lookup_insert_ne by congruence. apply Hd.
  - intros y l v Hl Hy. destruct (decide (y = x)) as [->|Hne].
    + rewrite lookup_insert in Hl; rewrite lookup_insert in Hy. injection Hl as <-. injection Hy as <-. eauto.
    + rewrite lookup_insert_ne in Hl by congruence; rewrite lookup_insert_ne in Hy by congruence. destruct (Hr _ _ _ Hl Hy) as (cap & H1 & H2).
      exists cap. split; [|exact H2]. eapply vrep_keep; [exact Hf|exact Hfr| |exact H1]. eapply Hother; eassumption.
  - intros y z v w b Hy Hz Hb1 Hb2.
    destruct (decide (y = x)) as [->|Hy1], (decide (z = x)) as [->|Hz1].
    + reflexivity.
    + rewrite lookup_insert in Hy. injection Hy as <-. rewrite lookup_insert_ne in Hz by congruence.
      exfalso. exact (Hnew _ _ Hz1 Hz _ Hb2 Hb1).
    + rewrite lookup_insert in Hz. injection Hz as <-. rewrite lookup_insert_ne in Hy by congruence.
      exfalso. exact (Hnew _ _ Hy1 Hy _ Hb1 Hb2).
    + rewrite lookup_insert_ne in Hy by congruence; rewrite lookup_insert_ne in Hz by congruence. eapply Hdis; eassumption.
  - intros b cs Hb. destruct Hfr as (_ & _ & _ & H4 & _). destruct (H4 _ _ Hb) as [X|[X|[X Y]]].
    + right. exists x, v'. rewrite lookup_insert. auto.
    + left. exact X.
    + destruct (Hcov _ _ Y) as [Z|(y & w & Hy & Hw)]; [left; exact Z|right]. exists y, w. split; [|exact Hw].
      rewrite lookup_insert_ne; [exact Hy|]. intros <-. apply X. unfold owns. rewrite Hy. exact Hw.
Qed.
Lemma xinv_del M s e m x v m' : xinv M s e m -> e !! x = Some v -> fr (own v) m [] m' -> xinv M (delete x s) (delete x e) m'.
Proof.
  intros Hinv Hx Hfr. pose proof Hinv as (Hf & Hd & Hr & Hdis & Hcov).
  split; [eapply fr_fresh; exact Hfr|]. split; [|split; [|split]].
  - intros y. destruct (decide (y = x)) as [->|Hne]; [rewrite !lookup_delete; tauto|].
    rewrite !lookup_delete_ne by congruence. apply Hd.
  - intros y l w Hl Hy. destruct (decide (y = x)) as [->|Hne]; [rewrite lookup_delete in Hl; discriminate|].
    rewrite lookup_delete_ne in Hl by congruence; rewrite lookup_delete_ne in Hy by congruence. destruct (Hr _ _ _ Hl Hy) as (cap & H1 & H2).
    exists cap. split; [|exact H2]. eapply vrep_keep; [exact Hf|exact Hfr| |exact H1].
    intros b Hb Hb'. apply Hne. eapply Hdis; eassumption.
  - intros y z w u b Hy Hz. apply lookup_delete_Some in Hy as [_ Hy]. apply lookup_delete_Some in Hz as [_ Hz]. eapply Hdis; eassumption.
  - intros b cs Hb. destruct Hfr as (_ & _ & _ & H4 & _). destruct (H4 _ _ Hb) as [X|[X|[X Y]]]; [destruct X|left; exact X|].
    destruct (Hcov _ _ Y) as [Z|(y & w & Hy & Hw)]; [left; exact Z|right]. exists y, w. split; [|exact Hw].
    rewrite lookup_delete_ne; [exact Hy|]. intros <-. rewrite Hx in Hy. injection Hy as ->. contradiction.
Qed.
Lemma xinv_swap M s e m x y l k v w : xinv M s e m -> s !! x = Some l -> s !! y = Some k -> e !! x = Some v -> e !! y = Some w ->
  xinv M (<[y := l]> (<[x := k]> s)) (<[y := v]> (<[x := w]> e)) m.
Proof.
  intros (Hf & Hd & Hr & Hdis & Hcov) Hl Hk Hv Hw. split; [exact Hf|]. split; [|split; [|split]].
  - intros a. rewrite (sw_lookup _ _ _ _ _ _ Hl Hk), (sw_lookup _ _ _ _ _ _ Hv Hw). apply Hd.
  - intros a la va. rewrite (sw_lookup _ _ _ _ _ _ Hl Hk), (sw_lookup _ _ _ _ _ _ Hv Hw). apply Hr.
  - intros a c va vc b. rewrite !(sw_lookup _ _ _ _ _ _ Hv Hw). intros Ha Hc Hb1 Hb2.
    rewrite <- (sw_sw x y a), <- (sw_sw x y c). f_equal. eapply Hdis; eassumption.
  - intros b cs Hb. destruct (Hcov _ _ Hb) as [X|(a & u & Ha & Hu)]; [left; exact X|right].
    exists (sw x y a), u. rewrite (sw_lookup _ _ _ _ _ _ Hv Hw), sw_sw. auto.
Qed.

Section step.
Context (M : Z) (HM : 2 * M * esz < 2 ^ 63).
Local Notation fits_2M := (fits_2M esz Hesz M HM).
Local Notation grow_2M := (grow_2M M).
Local Notation size_of := (size_of M).
Lemma xstep_declare s e m x l' r cap' : xinv M s e m -> s !! x = None -> post [] m r l' cap' -> Z.of_nat cap' <= 2 * M ->
  exists e' m', declare e x r = Ok (e', m') /\ xinv M (<[x := l']> s) e' m'.
Proof.
  intros Hinv Hx (v' & m' & E & Hv & Hfr) Hc. pose proof Hinv as (_ & Hd & _). apply Hd in Hx. unfold declare. rewrite Hx, E.
  cbn [obind]. eexists _, _. split; [reflexivity|]. eapply xinv_put; [exact Hinv| |exact Hv|exact Hc].
  unfold owns. rewrite Hx. exact Hfr.
Qed.
Lemma xstep_update s e m x l l' g : xinv M s e m -> s !! x = Some l ->
  (forall v cap, vrep v l cap m -> fresh m -> Z.of_nat cap <= 2 * M -> zlen l <= zlen l ->
    exists cap', post (own v) m (g v) l' cap' /\ Z.of_nat cap' <= 2 * M) ->
  exists e' m', update e x g = Ok (e', m') /\ xinv M (<[x := l']> s) e' m'.
Proof.
  intros Hinv Hx H. destruct (xinv_env _ _ _ _ _ _ Hinv Hx) as (v & cap & Hv & Hr & Hc).
  destruct (H v cap Hr (proj1 Hinv) Hc) as (cap' & (v' & m' & E & Hv' & Hfr) & Hc'); [lia|].
  unfold update, var. rewrite Hv. cbn [of_option obind]. rewrite E. cbn [obind].
  eexists _, _. split; [reflexivity|]. eapply xinv_put; [exact Hinv| |exact Hv'|exact Hc']. unfold owns. rewrite Hv. exact Hfr.
Qed.
Lemma xstep_move s e m x y l : xinv M s e m -> s !! y = Some l -> (<[y := []]> s) !! x = None ->
  exists w, e !! y = Some w /\ (<[y := vec0]> e) !! x = None /\ xinv M (<[x := l]> (<[y := []]> s)) (<[x := w]> (<[y := vec0]> e)) m.
Proof.
  intros Hinv Hy Hx. destruct (xinv_env _ _ _ _ _ _ Hinv Hy) as (w & cap & Hw & Hr & Hc).
  assert (Hxy : x <> y) by (intros ->; rewrite lookup_insert in Hx; discriminate).
  rewrite lookup_insert_ne in Hx by congruence. pose proof Hinv as (Hf & Hd & _). pose proof Hx as Hx'. apply Hd in Hx'.
  exists w. split; [exact Hw|]. split; [rewrite lookup_insert_ne by congruence; exact Hx'|].
  assert (Hinv1 : xinv M (<[x := []]> s) (<[x := vec0]> e) m).
  { assert (0 <= 2 * M) by lia. eapply (xinv_put _ _ _ _ _ _ _ 0%nat); [exact Hinv| | |lia].
    - unfold owns. rewrite Hx'. apply fr_refl. exact Hf.
    - split; [apply fits_2M; lia|]. split; [cbn; lia|]. left. auto. }
  pose proof (xinv_swap M _ _ _ x y [] l vec0 w Hinv1) as H.
  rewrite (insert_insert s), (insert_insert e) in H.
  rewrite (insert_commute s), (insert_commute e) by congruence.
  apply H; rewrite ?lookup_insert, ?lookup_insert_ne by congruence; auto.
Qed.

Lemma xstep_ok s e m c s' : xinv M s e m -> formed s c -> xstep dflt smk s c = Some s' -> requested c <= M -> sizes_ok M s' ->
  exists e' m', vstep esz dflt smk (e, m) c = Ok (e', m') /\ xinv M s' e' m'.
Proof.
  intros Hinv Hform Hs Hreq Hsz. pose proof Hinv as (Hf & Hd & _).
  destruct c as [x|x l|x n a|x n|x y|x y|x|x a|x a|x i a|x i a|x a|x i a|x i|x i j|x|x|x n|x n|x|x y|x y|x y];
    cbn [xstep vstep requested formed] in *.
  - apply new_Some in Hs as [Hx ->]. eapply (xstep_declare _ _ _ _ _ _ 0%nat); [exact Hinv|exact Hx| |].
    + exists vec0, m. split; [reflexivity|]. split; [|apply fr_refl; exact Hf]. apply size_of in Hsz. cbn in Hsz.
      split; [apply fits_2M; lia|]. split; [cbn; lia|]. left. auto.
    + apply size_of in Hsz. cbn in Hsz. lia.
  - apply new_Some in Hs as [Hx ->]. pose proof (size_of _ _ _ Hsz) as Hl. unfold zlen in Hl. rewrite fmap_length in Hl.
    eapply xstep_declare; [exact Hinv|exact Hx| |]; [apply vinit_ok; [exact Hesz|exact Hf|apply fits_2M; lia]|lia].
  - apply new_Some in Hs as [Hx ->]. pose proof (size_of _ _ _ Hsz) as Hl. unfold zlen in Hl. rewrite replicate_length in Hl.
    eapply (xstep_declare _ _ _ _ _ _ (Z.to_nat n)); [exact Hinv|exact Hx| |lia].
    apply vfill_ok; [exact Hesz|exact Hform|exact Hf|apply fits_2M; lia].
  - apply new_Some in Hs as [Hx ->]. pose proof (size_of _ _ _ Hsz) as Hl. unfold zlen in Hl. rewrite replicate_length in Hl.
    eapply (xstep_declare _ _ _ _ _ _ (Z.to_nat n)); [exact Hinv|exact Hx| |lia].
    apply vfill_ok; [exact Hesz|exact Hform|exact Hf|apply fits_2M; lia].
  - destruct (s !! y) as [l|] eqn:Hy; [|discriminate]. apply new_Some in Hs as [Hx ->].
    destruct (xinv_env _ _ _ _ _ _ Hinv Hy) as (w & cap & Hw & Hr & Hc). unfold var. rewrite Hw. cbn [of_option obind].
    pose proof (size_of _ _ _ Hsz) as Hl. unfold zlen in Hl.
    eapply xstep_declare; [exact Hinv|exact Hx|eapply vcopy_ok; [exact Hesz|exact Hr|exact Hf]|]. lia.
  - destruct (s !! y) as [l|] eqn:Hy; [|discriminate]. apply new_Some in Hs as [Hx ->].
    destruct (xstep_move _ _ _ _ _ _ Hinv Hy Hx) as (w & Hw & Hx' & Hinv').
    unfold var. rewrite Hw. cbn [of_option obind vmove vswap]. unfold declare. rewrite Hx'. cbn [obind].
    eexists _, _. split; [reflexivity|exact Hinv'].
  - destruct (s !! x) as [l|] eqn:Hx; [|discriminate]. injection Hs as <-.
    destruct (xinv_env _ _ _ _ _ _ Hinv Hx) as (v & cap & Hv & Hr & Hc). unfold var. rewrite Hv. cbn [of_option obind].
    destruct (vdestroy_ok esz Hesz _ _ _ _ Hr Hf) as (m' & -> & Hfr & _). cbn [obind].
    eexists _, _. split; [reflexivity|]. eapply xinv_del; eassumption.
  - apply on_Some in Hs as (l & l' & Hx & [= <-] & ->). pose proof (size_of _ _ _ Hsz) as Hl. unfold zlen in Hl. rewrite app_length in Hl. cbn in Hl.
    eapply xstep_update; [exact Hinv|exact Hx|]. intros v cap Hr _ Hc _.
    assert (Hg := grow_2M cap (S (length l)) Hc ltac:(lia)).
    destruct (push_back_ok esz Hesz a v _ cap m Hr Hf) as (v' & m' & E & Hr' & Hfr & _); [apply fits_2M; exact Hg|].
    eexists. split; [|exact Hg]. exists v', m'. auto.
  - apply on_Some in Hs as (l & l' & Hx & [= <-] & ->). pose proof (size_of _ _ _ Hsz) as Hl. unfold zlen in Hl. cbn [length] in Hl.
    eapply xstep_update; [exact Hinv|exact Hx|]. intros v cap Hr _ Hc _.
    assert (Hg := grow_2M cap (S (length l)) Hc ltac:(lia)).
    eexists. split; [|exact Hg].
    apply (push_front_ok esz dflt smk Hesz a v _ cap m Hr Hf), fits_2M, Hg.
  - apply on_Some in Hs as (l & l' & Hx & [= <-] & ->). destruct Hform as [Hi0 Hi1]. specialize (Hi1 _ Hx).
    assert (Hi : 0 <= i <= zlen l) by lia. unfold zlen, ztake, zdrop in *.
    pose proof (size_of _ _ _ Hsz) as Hl. unfold zlen in Hl. rewrite app_length in Hl. cbn [length] in Hl. rewrite take_length, drop_length in Hl.
    eapply xstep_update; [exact Hinv|exact Hx|]. intros v cap Hr _ Hc _.
    assert (Hg := grow_2M cap (S (length l)) Hc ltac:(lia)).
    assert (Hlec : (length l <= cap)%nat) by apply Hr.
    destruct (padd_ok esz _ _ _ _ i Hr) as (p & Ep); [lia|]. rewrite Ep. cbn [obind].
    eexists. split; [|exact Hg].
    apply (insert_ok esz dflt smk Hesz i p a v _ cap m Hr Hf); [lia|apply fits_2M, Hg|exact Ep].
  - apply on_Some in Hs as (l & l' & Hx & [= <-] & ->). destruct Hform as [Hi0 Hi1]. specialize (Hi1 _ Hx).
    assert (Hi : 0 <= i <= zlen l) by lia. unfold zlen, ztake, zdrop in *.
    pose proof (size_of _ _ _ Hsz) as Hl. unfold zlen in Hl. rewrite app_length in Hl. cbn [length] in Hl. rewrite take_length, drop_length in Hl.
    eapply xstep_update; [exact Hinv|exact Hx|]. intros v cap Hr _ Hc _.
    assert (Hg := grow_2M cap (S (length l)) Hc ltac:(lia)).
    assert (Hlec : (length l <= cap)%nat) by apply Hr.
    destruct (padd_ok esz _ _ _ _ i Hr) as (p & Ep); [lia|]. rewrite Ep. cbn [obind].
    eexists. split; [|exact Hg].
    apply (emplace_ok esz dflt smk Hesz i p a v _ cap m Hr Hf); [lia|apply fits_2M, Hg|exact Ep].
  - apply on_Some in Hs as (l & l' & Hx & [= <-] & ->). pose proof (size_of _ _ _ Hsz) as Hl. unfold zlen in Hl. rewrite app_length in Hl. cbn in Hl.
    eapply xstep_update; [exact Hinv|exact Hx|]. intros v cap Hr _ Hc _.
    assert (Hg := grow_2M cap (S (length l)) Hc ltac:(lia)).
    destruct (push_back_ok esz Hesz a v _ cap m Hr Hf) as (v' & m' & E & Hr' & Hfr & _); [apply fits_2M; exact Hg|].
    eexists. split; [|exact Hg]. exists v', m'. auto.
  - apply on_Some in Hs as (l & l' & Hx & Hw & ->). apply when_Some in Hw as [Hw ->].
    assert (Hi : 0 <= i < zlen l) by lia. unfold zlen, ztake, zdrop in *.
    eapply xstep_update; [exact Hinv|exact Hx|]. intros v cap Hr _ Hc _.
    destruct (set_ok esz i a v _ cap m Hr Hf) as (m' & E & Hr' & Hfr); [lia|].
    rewrite E. cbn [obind]. exists cap. split; [|exact Hc]. exists v, m'. split; [reflexivity|]. split; [|exact Hfr].
    replace (Z.to_nat (i + 1)) with (S (Z.to_nat i)) by lia. exact Hr'.
  - apply on_Some in Hs as (l & l' & Hx & Hw & ->). apply when_Some in Hw as [Hw ->]. destruct Hform as [Hi0 Hi1]. specialize (Hi1 _ Hx).
    eapply xstep_update; [exact Hinv|exact Hx|]. intros v cap Hr _ Hc _.
    assert (Hlec : (length l <= cap)%nat) by apply Hr. exists cap. split; [|exact Hc].
    destruct (padd_ok esz _ _ _ _ i Hr) as (p & Ep); [unfold zlen in *; lia|]. rewrite Ep. cbn [obind].
    destruct (Z.ltb_spec i (zlen l)) as [Hi|Hi]; unfold zlen, ztake, zdrop in *.
    + replace (Z.to_nat (i + 1)) with (S (Z.to_nat i)) by lia.
      apply erase_ok; [exact Hesz|exact Hr|exact Hf|lia|exact Ep].
    + destruct l as [|a l] using rev_ind; [cbn in Hw; lia|]. clear IHl. rewrite app_length in *. cbn [length] in *.
      replace (Z.to_nat (Z.of_nat (length l + 1) - 1)) with (length l) by lia. rewrite stdpp.list.take_app.
      eapply erase_last; [exact Hesz|exact Hr|exact Hf|]. rewrite <- Ep. f_equal. lia.
  - apply on_Some in Hs as (l & l' & Hx & Hw & ->). apply when_Some in Hw as [Hw ->]. destruct Hform as (Hi0 & Hj0 & Hi1). destruct (Hi1 _ Hx) as [Hi Hj].
    eapply xstep_update; [exact Hinv|exact Hx|]. intros v cap Hr _ Hc _.
    assert (Hlec : (length l <= cap)%nat) by apply Hr. exists cap. split; [|exact Hc]. unfold zlen in Hi, Hj.
    destruct (padd_ok esz _ _ _ _ i Hr) as (p & Ep); [lia|]. destruct (padd_ok esz _ _ _ _ j Hr) as (q & Eq); [lia|].
    rewrite Ep. cbn [obind]. rewrite Eq. cbn [obind]. unfold xerase. destruct (smk || (i <? j)) eqn:Ho.
    + apply erase_range_ok; try assumption; [lia|]. apply orb_true_iff in Ho as [Ho|Ho]; [left; exact Ho|right; left; lia].
    + apply orb_false_iff in Ho as [Ho Hij]. assert (j = i) as -> by lia.
      apply erase_range_self; try assumption. lia.
  - apply on_Some in Hs as (l & l' & Hx & Hw & ->). apply when_Some in Hw as [Hw ->]. unfold zlen, ztake in *.
    eapply xstep_update; [exact Hinv|exact Hx|]. intros v cap Hr _ Hc _. exists cap. split; [|exact Hc].
    destruct l as [|a l] using rev_ind; [cbn in Hw; lia|]. clear IHl. rewrite app_length in *. cbn [length] in *.
    replace (Z.to_nat (Z.of_nat (length l + 1) - 1)) with (length l) by lia. rewrite stdpp.list.take_app.
    eapply pop_back_ok; [exact Hesz|exact Hr|exact Hf].
  - apply on_Some in Hs as (l & l' & Hx & Hw & ->). apply when_Some in Hw as [Hw ->]. unfold zlen, zdrop in *.
    eapply xstep_update; [exact Hinv|exact Hx|]. intros v cap Hr _ Hc _. exists cap. split; [|exact Hc].
    destruct l as [|a l]; [cbn in Hw; lia|]. eapply pop_front_ok; [exact Hesz|exact Hr|exact Hf].
  - apply on_Some in Hs as (l & l' & Hx & [= <-] & ->).
    pose proof (size_of _ _ _ Hsz) as Hl. unfold pad, zlen, ztake in *. rewrite app_length, take_length, replicate_length in Hl.
    eapply xstep_update; [exact Hinv|exact Hx|]. intros v cap Hr _ Hc _.
    assert (Hg := grow_2M cap (Z.to_nat n) Hc ltac:(lia)).
    destruct (resize_ok esz dflt Hesz n v _ cap m Hr Hf) as (cap' & Hp & Hcap'); [lia|apply fits_2M; exact Hg|].
    exists cap'. split; [|destruct Hcap' as [-> | ->]; assumption].
    unfold opad in Hp. 
    replace (Z.to_nat (n - Z.of_nat (length l))) with (Z.to_nat n - length l)%nat by lia. exact Hp.
  - apply on_Some in Hs as (l & l' & Hx & [= <-] & ->).
    eapply xstep_update; [exact Hinv|exact Hx|]. intros v cap Hr _ Hc _.
    assert (Hg := grow_2M cap (Z.to_nat n) Hc ltac:(lia)). exists (growcap cap (Z.to_nat n)). split; [|exact Hg].
    unfold reserve, ensure.
    destruct (ensure_ok esz Hesz 0 n v _ cap m Hr Hf) as (v' & m' & E & Hr' & Hfr & _); [lia|apply fits_2M; exact Hg|].
    exists v', m'. auto.
  - apply on_Some in Hs as (l & l' & Hx & [= <-] & ->).
    eapply xstep_update; [exact Hinv|exact Hx|]. intros v cap Hr _ Hc _. exists cap. split; [|exact Hc].
    eapply clear_ok; [exact Hesz|exact Hr|exact Hf].
  - destruct (s !! y) as [l|] eqn:Hy; [|discriminate]. apply on_Some in Hs as (k & l' & Hx & [= <-] & ->).
    destruct (xinv_env _ _ _ _ _ _ Hinv Hy) as (w & cap & Hw & Hr & Hc). unfold var at 1. rewrite Hw. cbn [of_option obind].
    pose proof (size_of _ _ _ Hsz) as Hl. unfold zlen in Hl.
    eapply xstep_update; [exact Hinv|exact Hx|]. intros v cap' Hr' _ Hc' _. eexists.
    split; [eapply copy_assign_ok; [exact Hesz|exact Hr'|exact Hr|exact Hf]|]. lia.
  - destruct (s !! y) as [l|] eqn:Hy; [|discriminate]. apply on_Some in Hs as (k & l' & Hx & [= <-] & ->).
    set (z := base.fresh (dom (<[y := []]> s))).
    assert (Hz : (<[y := []]> s) !! z = None) by (apply not_elem_of_dom, is_fresh).
    assert (Hzx : z <> x) by (intros ->; rewrite Hx in Hz; discriminate).
    destruct (xstep_move _ _ _ z y _ Hinv Hy Hz) as (w & Hw & Hz' & Hinv1).
    unfold var. rewrite Hw. cbn [of_option obind vmove vswap].
    assert (Hx1 : (<[z := l]> (<[y := []]> s)) !! x = Some k) by (rewrite lookup_insert_ne by congruence; exact Hx).
    destruct (xinv_env _ _ _ _ _ _ Hinv1 Hx1) as (v & cap & Hv & Hr & Hc).
    pose proof Hv as Hv'. rewrite lookup_insert_ne in Hv' by congruence. rewrite Hv'. cbn [of_option obind].
    destruct (vdestroy_ok esz Hesz _ _ _ _ Hr Hf) as (m' & -> & Hfr & _). cbn [obind].
    eexists _, _. split; [reflexivity|].
    assert (Hzl : (<[z := l]> (<[y := []]> s)) !! z = Some l) by apply lookup_insert.
    assert (Hzw : (<[z := w]> (<[y := vec0]> e)) !! z = Some w) by apply lookup_insert.
    pose proof (xinv_swap _ _ _ _ _ _ _ _ _ _ Hinv1 Hx1 Hzl Hv Hzw) as Hinv2.
    pose proof (xinv_del _ _ _ _ z v m' Hinv2 (lookup_insert _ _ _) Hfr) as H.
    rewrite !delete_insert_delete in H. rewrite !(delete_insert_ne _ _ x) in H by congruence.
    rewrite !delete_insert in H by assumption. exact H.
  - destruct (s !! x) as [l|] eqn:Hx; [|discriminate]. destruct (s !! y) as [k|] eqn:Hy; [|discriminate]. injection Hs as <-.
    destruct (xinv_env _ _ _ _ _ _ Hinv Hx) as (v & cap & Hv & _). destruct (xinv_env _ _ _ _ _ _ Hinv Hy) as (w & cap' & Hw & _).
    unfold var. rewrite Hv, Hw. cbn [of_option obind vswap]. eexists _, _. split; [reflexivity|].
    eapply xinv_swap; eassumption.
Qed.

(** ** Wrong steps *)
Lemma var_none s e m x : xinv M s e m -> s !! x = None -> var e x = UB.
Proof. intros (_ & Hd & _) H. apply Hd in H. unfold var. rewrite H. reflexivity. Qed.
Lemma declare_wrong s e m x l r : xinv M s e m -> new s x l = None -> declare e x r = UB :> outcome (env * mem).
Proof.
  intros (_ & Hd & _) H. unfold new in H. destruct (s !! x) eqn:E; [|discriminate]. unfold declare.
  destruct (e !! x) eqn:E'; [reflexivity|]. apply Hd in E'. congruence.
Qed.
Lemma update_wrong s e m x f g : xinv M s e m -> on s x f = None ->
  (forall l v cap, s !! x = Some l -> f l = None -> vrep v l cap m -> g v = UB) -> update e x g = UB :> outcome (env * mem).
Proof.
  intros Hinv H Hg. unfold on in H. unfold update. destruct (s !! x) as [l|] eqn:E.
  - destruct (f l) eqn:Ef; [discriminate|]. destruct (xinv_env _ _ _ _ _ _ Hinv E) as (v & cap & Hv & Hr & _).
    unfold var. rewrite Hv. cbn [of_option obind]. rewrite (Hg l v cap eq_refl Ef Hr). reflexivity.
  - rewrite (var_none _ _ _ _ Hinv E). reflexivity.
Qed.
Lemma when_None b (l : list (option A)) : when b l = None -> b = false.
Proof. destruct b; [discriminate|reflexivity]. Qed.
Lemma xstep_wrong s e m c : xinv M s e m -> formed s c -> xstep dflt smk s c = None -> vstep esz dflt smk (e, m) c = UB.
Proof.
  intros Hinv Hform Hs.
  destruct c as [x|x l|x n a|x n|x y|x y|x|x a|x a|x i a|x i a|x a|x i a|x i|x i j|x|x|x n|x n|x|x y|x y|x y];
    cbn [xstep vstep formed] in *;
    try (exact (declare_wrong _ _ _ _ _ _ Hinv Hs));
    try (apply (update_wrong _ _ _ _ _ _ Hinv Hs); intros l v cap Hx Hw Hr; discriminate Hw).
  - destruct (s !! y) as [l|] eqn:Hy; [exact (declare_wrong _ _ _ _ _ _ Hinv Hs)|].
    unfold declare. destruct (e !! x); [reflexivity|]. rewrite (var_none _ _ _ _ Hinv Hy). reflexivity.
  - destruct (s !! y) as [l|] eqn:Hy; [|rewrite (var_none _ _ _ _ Hinv Hy); reflexivity].
    destruct (xinv_env _ _ _ _ _ _ Hinv Hy) as (w & cap & Hw & Hr & Hc). unfold var. rewrite Hw. cbn [of_option obind vmove vswap].
    unfold new in Hs. unfold declare. destruct (decide (x = y)) as [->|Hne]; [rewrite lookup_insert; reflexivity|].
    rewrite lookup_insert_ne in Hs by congruence. rewrite lookup_insert_ne by congruence.
    destruct (s !! x) eqn:Hx; [|discriminate]. destruct (e !! x) eqn:Ex; [reflexivity|]. apply Hinv in Ex. congruence.
  - destruct (s !! x) as [l|] eqn:Hx; [discriminate|]. rewrite (var_none _ _ _ _ Hinv Hx). reflexivity.
  - apply (update_wrong _ _ _ _ _ _ Hinv Hs). intros l v cap Hx Hw Hr. apply when_None in Hw.
    rewrite (set_wrong esz i a v _ cap m Hr) by (unfold zlen in Hw; lia). reflexivity.
  - apply (update_wrong _ _ _ _ _ _ Hinv Hs). intros l v cap Hx Hw Hr. apply when_None in Hw. destruct Hform as [Hi0 Hi1]. specialize (Hi1 _ Hx).
    destruct l as [|a l]; [|unfold zlen in Hw; cbn in Hw; lia]. cbn in Hi1. replace i with 0 by lia.
    destruct (padd_ok esz _ _ _ _ 0 Hr) as (p & Ep); [lia|]. rewrite Ep. cbn [obind].
    replace p with (vstart v); [exact (erase_nothing esz smk Hesz _ _ _ Hr)|].
    destruct (vstart v); cbn in Ep; [congruence|]. injection Ep as <-. f_equal. lia.
  - apply (update_wrong _ _ _ _ _ _ Hinv Hs). intros l v cap Hx Hw Hr. apply when_None in Hw. destruct Hform as (Hi0 & Hj0 & Hi1). destruct (Hi1 _ Hx) as [Hi Hj].
    assert (Hlec : (length l <= cap)%nat) by apply Hr. unfold zlen in *.
    destruct (padd_ok esz _ _ _ _ i Hr) as (p & Ep); [lia|]. destruct (padd_ok esz _ _ _ _ j Hr) as (q & Eq); [lia|].
    rewrite Ep. cbn [obind]. rewrite Eq. cbn [obind]. apply (erase_range_wrong esz smk Hesz i j p q v l cap m Hr); [lia|lia|exact Ep|exact Eq].
  - apply (update_wrong _ _ _ _ _ _ Hinv Hs). intros l v cap Hx Hw Hr. apply when_None in Hw.
    destruct l as [|a l]; [|unfold zlen in Hw; cbn in Hw; lia]. exact (pop_nothing esz smk Hesz _ _ _ Hr).
  - apply (update_wrong _ _ _ _ _ _ Hinv Hs). intros l v cap Hx Hw Hr. apply when_None in Hw.
    destruct l as [|a l]; [|unfold zlen in Hw; cbn in Hw; lia]. exact (erase_nothing esz smk Hesz _ _ _ Hr).
  - destruct (s !! y) as [l|] eqn:Hy; [|rewrite (var_none _ _ _ _ Hinv Hy); reflexivity].
    destruct (xinv_env _ _ _ _ _ _ Hinv Hy) as (w & cap & Hw & Hr & Hc). unfold var at 1. rewrite Hw. cbn [of_option obind].
    apply (update_wrong _ _ _ _ _ _ Hinv Hs). discriminate.
  - destruct (s !! y) as [l|] eqn:Hy; [|rewrite (var_none _ _ _ _ Hinv Hy); reflexivity].
    destruct (xinv_env _ _ _ _ _ _ Hinv Hy) as (w & cap & Hw & Hr & Hc). unfold var. rewrite Hw. cbn [of_option obind vmove vswap].
    unfold on in Hs. destruct (decide (x = y)) as [->|Hne]; [rewrite lookup_insert in Hs; discriminate|].
    rewrite lookup_insert_ne in Hs by congruence. rewrite lookup_insert_ne by congruence.
    destruct (s !! x) eqn:Hx; [discriminate|]. apply Hinv in Hx. rewrite Hx. reflexivity.
  - destruct (s !! x) as [l|] eqn:Hx; [|rewrite (var_none _ _ _ _ Hinv Hx); reflexivity].
    destruct (s !! y) as [k|] eqn:Hy; [discriminate|].
    destruct (xinv_env _ _ _ _ _ _ Hinv Hx) as (v & cap & Hv & _). unfold var at 1. rewrite Hv. cbn [of_option obind].
    rewrite (var_none _ _ _ _ Hinv Hy). reflexivity.
Qed.

Lemma xrun_ok cs : forall s e m, xinv M s e m -> formed_run dflt smk M s cs ->
  match xrun dflt smk s cs with
  | Some s' => exists e' m', vrun esz dflt smk (e, m) cs = Ok (e', m') /\ xinv M s' e' m'
  | None => vrun esz dflt smk (e, m) cs = UB
  end.
Proof.
  induction cs as [|c cs IH]; intros s e m Hinv Hw; cbn [xrun vrun formed_run] in *; [eauto|].
  destruct Hw as (Hform & Hreq & Hw). destruct (xstep dflt smk s c) as [s1|] eqn:E.
  - destruct (Hw _ eq_refl) as [Hsz Hw1].
    destruct (xstep_ok _ _ _ _ _ Hinv Hform E Hreq Hsz) as (e1 & m1 & E1 & Hinv1). rewrite E1. cbn [obind]. apply IH; assumption.
  - rewrite (xstep_wrong _ _ _ _ Hinv Hform E). reflexivity.
Qed.
Lemma xshows_ok v l cap m : vrep v l cap m -> xshows v m l.
Proof.
  intros Hr. assert (Hs : vsize v = Ok (zlen l)) by exact (vsize_ok esz Hesz _ _ _ _ Hr).
  assert (Hget : forall i x, l !! i = Some x -> vget (Z.of_nat i) v m = Ok x) by (intros i x; exact (vget_ok esz _ _ _ _ _ _ Hr)).
  split; [exact Hs|]. split; [unfold vempty; rewrite Hs; reflexivity|].
  split; [|split; [exact Hget|split; [|split; [|split; [|split]]]]].
  - unfold viter. rewrite Hs. cbn [obind]. unfold zlen. rewrite Nat2Z.id.
    destruct Hr as (_ & _ & [(-> & -> & _)|(b & -> & Hb)]); [reflexivity|].
    cbn [mkv vstart vfinish]. eapply (iterate_ok _ _ m b []); [|exact Hb|reflexivity|]; cbn; lia.
  - intros a Ha. destruct l as [|c l]; [discriminate|]. injection Ha as ->.
    rewrite <- (Hget 0%nat a eq_refl). unfold vget, vfront.
    destruct Hr as (_ & _ & [(_ & X & _)|(b & -> & Hb)]); [discriminate|]. reflexivity.
  - intros ->. pose proof (get_wrong esz 0 v [] cap m Hr) as H. unfold vget, vfront in *.
    destruct (vstart v); cbn in *; [reflexivity|]. rewrite Z.add_0_r in H. apply H. lia.
  - intros a Ha. destruct l as [|c l] using rev_ind; [discriminate|]. rewrite last_snoc in Ha. injection Ha as ->. clear IHl.
    rewrite <- (Hget (length l) a) by (rewrite lookup_app_r, Nat.sub_diag by lia; reflexivity).
    unfold vget, vback. destruct Hr as (_ & _ & [(_ & X & _)|(b & -> & Hb)]).
    { destruct l; discriminate X. }
    cbn [mkv vstart vfinish padd obind]. rewrite app_length. cbn [length]. do 2 f_equal. lia.
  - intros ->. unfold vback. destruct (rep_cases esz _ _ _ _ Hr) as [(-> & _)|(b & E)]; [reflexivity|].
    pose proof (rep_dead esz _ _ _ _ _ Hr E) as D. rewrite E. cbn [mkv vfinish padd obind length]. apply dead_load, D. right. reflexivity.
  - intros i Hi. exact (get_wrong esz i v _ cap m Hr Hi).
Qed.
End step.
End run.

Lemma xhistory {A} (esz : Z) (dflt : A) (smk : bool) M cs : 1 <= esz -> 2 * M * esz < 2 ^ 63 -> formed_run dflt smk M ∅ cs ->
  match xrun dflt smk ∅ cs with
  | Some s => exists e m, vrun esz dflt smk (∅, mem0) cs = Ok (e, m) /\ (forall x, s !! x = None <-> e !! x = None) /\
      forall x l v, s !! x = Some l -> e !! x = Some v -> xshows v m l
  | None => vrun esz dflt smk (∅, mem0) cs = UB
  end.
Proof.
  intros He HM Hw. pose proof (xrun_ok esz dflt smk He M HM cs ∅ ∅ mem0 (xinv0 esz M) Hw) as H.
  destruct (xrun dflt smk ∅ cs) as [s|]; [|exact H]. destruct H as (e & m & E & Hinv). exists e, m. split; [exact E|].
  split; [apply Hinv|]. intros x l v Hx Hv. destruct Hinv as (_ & _ & Hr & _). destruct (Hr _ _ _ Hx Hv) as (cap & R & _).
  exact (xshows_ok esz He _ _ _ _ R).
Qed.
