(** Histories of deque, queue and stack operations. *)
From stdpp Require Import gmap list.
From Coq Require Import ZArith Lia ZifyBool ZifyNat.
From Verif Require Import Base ObjModel ObjSpec ObjProofs DequeModel DequeSpec DequeProofs DequeOps.
Local Open Scope Z_scope.
Local Open Scope outcome_scope.

Section run.
Context {A : Type} (esz : Z) (Hblock : 16 * esz < 2 ^ 63).
Notation val := (A + nat)%type.
Notation mem := (mem val).
Notation store := (gmap nat (sq A)).
Notation env := (gmap nat deq).
Implicit Types (m : mem) (s : store) (e : env) (q : sq A) (d : deq).

(** [w x]: the blocks that belong to the deque [x]. *)
Definition inv (w : nat -> list nat) s e m : Prop :=
  fresh m /\
  (forall x, s !! x = None <-> e !! x = None) /\
  (forall x, e !! x = None -> w x = []) /\
  (forall x q d, s !! x = Some q -> e !! x = Some d -> drep d q (w x) m) /\
  (forall x y b, In b (w x) -> In b (w y) -> x = y) /\
  (forall b cs, blocks m !! b = Some cs -> cs = [] \/ exists x, In b (w x)).
Definition upd1 (w : nat -> list nat) (x : nat) (o : list nat) (y : nat) : list nat := if Nat.eqb y x then o else w y.
Lemma upd1_eq w x o : upd1 w x o x = o.
Proof. unfold upd1. rewrite Nat.eqb_refl. reflexivity. Qed.
Lemma upd1_ne w x o y : y <> x -> upd1 w x o y = w y.
Proof. unfold upd1. destruct (Nat.eqb_spec y x); [contradiction|reflexivity]. Qed.

Lemma inv0 : inv (fun _ => []) ∅ ∅ mem0.
Proof.
  split; [intros b _; apply lookup_empty|]. split; [intros x; rewrite !lookup_empty; tauto|]. split; [reflexivity|].
  split; [intros x l v H; rewrite lookup_empty in H; discriminate|].
  split; [intros x y b []|].
  intros b cs H. cbn in H. rewrite lookup_empty in H. discriminate.
Qed.
Lemma inv_env w s e m x q : inv w s e m -> s !! x = Some q -> exists d, e !! x = Some d /\ drep d q (w x) m.
Proof.
  intros (_ & Hd & _ & Hr & _) Hx. destruct (e !! x) as [v|] eqn:E; [eauto|]. apply Hd in E. congruence.
Qed.
Lemma inv_lt w s e m x b : inv w s e m -> In b (w x) -> (b < nextb m)%nat.
Proof.
  intros (Hf & Hd & Hn & Hr & _) Hb. destruct (e !! x) as [d|] eqn:Ex; [|rewrite (Hn _ Ex) in Hb; destruct Hb].
  destruct (s !! x) as [q|] eqn:E; [|apply Hd in E; congruence].
  exact (drep_lt _ _ _ _ _ Hf (Hr _ _ _ E Ex) Hb).
Qed.

Lemma inv_put w s e m x q' d' o' m' : inv w s e m -> fr (w x) m o' m' -> drep d' q' o' m' ->
  inv (upd1 w x o') (<[x := q']> s) (<[x := d']> e) m'.
Proof.
  intros Hinv Hfr Hv. pose proof Hinv as (Hf & Hd & Hn & Hr & Hdis & Hcov).
  assert (Hother : forall y, y <> x -> forall b, In b (w y) -> ~ In b (w x)).
  { intros y Hne b Hb Hb'. apply Hne. eapply Hdis; eassumption. }
  assert (Hnew : forall y, y <> x -> forall b, In b (w y) -> ~ In b o').
  { intros y Hne b Hb Hb'. pose proof (inv_lt _ _ _ _ _ _ Hinv Hb) as Hlt.
    destruct Hfr as (_ & _ & H3 & _). exact (Hother _ Hne _ Hb (H3 _ Hb' Hlt)). }
  split; [eapply fr_fresh; exact Hfr|]. split; [|split; [|split; [|split]]].
  - intros y. destruct (decide (y = x)) as [->|Hne]; [rewrite !lookup_insert; split; discriminate|].
    rewrite !lookup_insert_ne by congruence. apply Hd.
  - intros y Hy. destruct (decide (y = x)) as [->|Hne]; [rewrite lookup_insert in Hy; discriminate|].
    rewrite lookup_insert_ne in Hy by congruence. rewrite upd1_ne by exact Hne. apply Hn, Hy.
  - intros y q d Hl Hy. destruct (decide (y = x)) as [->|Hne].
    + rewrite lookup_insert in Hl; rewrite lookup_insert in Hy. injection Hl as <-. injection Hy as <-. rewrite upd1_eq. exact Hv.
    + rewrite lookup_insert_ne in Hl by congruence; rewrite lookup_insert_ne in Hy by congruence. rewrite upd1_ne by exact Hne.
      eapply drep_keep; [exact Hf|exact Hfr|exact (Hother _ Hne)|exact (Hr _ _ _ Hl Hy)].
  - intros y z b Hb1 Hb2.
    destruct (decide (y = x)) as [->|Hy1], (decide (z = x)) as [->|Hz1].
    + reflexivity.
    + rewrite upd1_eq in Hb1. rewrite upd1_ne in Hb2 by exact Hz1. exfalso. exact (Hnew _ Hz1 _ Hb2 Hb1).
    + rewrite upd1_eq in Hb2. rewrite upd1_ne in Hb1 by exact Hy1. exfalso. exact (Hnew _ Hy1 _ Hb1 Hb2).
    + rewrite upd1_ne in Hb1 by exact Hy1. rewrite upd1_ne in Hb2 by exact Hz1. eapply Hdis; eassumption.
  - intros b cs Hb. destruct Hfr as (_ & _ & _ & H4 & _). destruct (H4 _ _ Hb) as [X|[X|[X Y]]].
    + right. exists x. rewrite upd1_eq. exact X.
    + left. exact X.
    + destruct (Hcov _ _ Y) as [Z|(y & Hy)]; [left; exact Z|right]. exists y. rewrite upd1_ne; [exact Hy|]. intros ->. contradiction.
Qed.
Lemma inv_del w s e m x m' : inv w s e m -> fr (w x) m [] m' -> inv (upd1 w x []) (delete x s) (delete x e) m'.
Proof.
  intros Hinv Hfr. pose proof (inv_put _ _ _ _ x sq0 deq0 _ _ Hinv Hfr (drep0 _)) as (Hf & Hd & Hn & Hr & Hdis & Hcov).
  split; [exact Hf|]. split; [|split; [|split; [|split; assumption]]].
  - intros y. destruct (decide (y = x)) as [->|Hne]; [rewrite !lookup_delete; tauto|].
    rewrite !lookup_delete_ne by congruence. specialize (Hd y). rewrite !lookup_insert_ne in Hd by congruence. exact Hd.
  - intros y Hy. destruct (decide (y = x)) as [->|Hne]; [apply upd1_eq|].
    rewrite lookup_delete_ne in Hy by congruence. apply Hn. rewrite lookup_insert_ne by congruence. exact Hy.
  - intros y q d Hl Hy. destruct (decide (y = x)) as [->|Hne]; [rewrite lookup_delete in Hl; discriminate|].
    rewrite lookup_delete_ne in Hl by congruence; rewrite lookup_delete_ne in Hy by congruence.
    apply Hr; rewrite lookup_insert_ne by congruence; assumption.
Qed.
Definition sw (x y a : nat) : nat := if Nat.eqb a x then y else if Nat.eqb a y then x else a.
Lemma sw_sw x y a : sw x y (sw x y a) = a.
Proof.
  unfold sw. destruct (Nat.eqb_spec a x) as [->|H1]; [destruct (Nat.eqb_spec y x) as [->|H]; [reflexivity|rewrite Nat.eqb_refl; reflexivity]|].
  destruct (Nat.eqb_spec a y) as [->|H2]; [rewrite Nat.eqb_refl; reflexivity|].
  destruct (Nat.eqb_spec a x); [contradiction|]. destruct (Nat.eqb_spec a y); [contradiction|reflexivity].
Qed.
Lemma sw_lookup {V} (g : gmap nat V) x y v w a : g !! x = Some v -> g !! y = Some w ->
  <[y := v]> (<[x := w]> g) !! a = g !! sw x y a.
Proof.
  intros Hx Hy. unfold sw. destruct (Nat.eqb_spec a x) as [->|H1].
  - destruct (decide (x = y)) as [->|Hn]; [rewrite lookup_insert; congruence|].
    rewrite lookup_insert_ne, lookup_insert by congruence. congruence.
  - destruct (Nat.eqb_spec a y) as [->|H2]; [rewrite lookup_insert; congruence|].
    rewrite !lookup_insert_ne by congruence. reflexivity.
Qed.
Lemma inv_swap w s e m x y p q c d : inv w s e m -> s !! x = Some p -> s !! y = Some q -> e !! x = Some c -> e !! y = Some d ->
  inv (fun a => w (sw x y a)) (<[y := p]> (<[x := q]> s)) (<[y := c]> (<[x := d]> e)) m.
Proof.
  intros (Hf & Hd & Hn & Hr & Hdis & Hcov) Hl Hk Hv Hw. split; [exact Hf|]. split; [|split; [|split; [|split]]].
  - intros a. rewrite (sw_lookup _ _ _ _ _ _ Hl Hk), (sw_lookup _ _ _ _ _ _ Hv Hw). apply Hd.
  - intros a. rewrite (sw_lookup _ _ _ _ _ _ Hv Hw). apply Hn.
  - intros a qa da. rewrite (sw_lookup _ _ _ _ _ _ Hl Hk), (sw_lookup _ _ _ _ _ _ Hv Hw). apply Hr.
  - intros a c' b Hb1 Hb2. rewrite <- (sw_sw x y a), <- (sw_sw x y c'). f_equal. eapply Hdis; eassumption.
  - intros b cs Hb. destruct (Hcov _ _ Hb) as [X|(a & Ha)]; [left; exact X|right]. exists (sw x y a). rewrite sw_sw. exact Ha.
Qed.

Lemma step_declare w s e m x q' r : inv w s e m -> s !! x = None -> post [] m r q' ->
  exists w' e' m', declare e x r = Ok (e', m') /\ inv w' (<[x := q']> s) e' m'.
Proof.
  intros Hinv Hx (d' & o' & m' & E & Hv & Hfr). pose proof Hinv as (_ & Hd & Hn & _). apply Hd in Hx. unfold declare. rewrite Hx, E.
  cbn [obind]. eexists _, _, _. split; [reflexivity|]. eapply inv_put; [exact Hinv| |exact Hv]. rewrite (Hn _ Hx). exact Hfr.
Qed.
Lemma step_update w s e m x q q' g : inv w s e m -> s !! x = Some q ->
  (forall d o, drep d q o m -> fresh m -> post o m (g d) q') ->
  exists w' e' m', update e x g = Ok (e', m') /\ inv w' (<[x := q']> s) e' m'.
Proof.
  intros Hinv Hx H. destruct (inv_env _ _ _ _ _ _ Hinv Hx) as (d & Hd & Hr).
  destruct (H d _ Hr (proj1 Hinv)) as (d' & o' & m' & E & Hv' & Hfr).
  unfold update, var. rewrite Hd. cbn [of_option obind]. rewrite E. cbn [obind].
  eexists _, _, _. split; [reflexivity|]. eapply inv_put; eassumption.
Qed.
Lemma on_Some s x f s' : on s x f = Some s' -> exists q q', s !! x = Some q /\ f q = Some q' /\ s' = <[x := q']> s.
Proof. unfold on. destruct (s !! x) as [l|]; [|discriminate]. destruct (f l) as [l'|] eqn:E; [|discriminate]. intros [= <-]. eauto. Qed.
Lemma new_Some s x q s' : new s x q = Some s' -> s !! x = None /\ s' = <[x := q]> s.
Proof. unfold new. destruct (s !! x); [discriminate|]. intros [= <-]. auto. Qed.

Lemma step_move w s e m x y q : inv w s e m -> s !! y = Some q -> (<[y := sq0]> s) !! x = None ->
  exists d w', e !! y = Some d /\ (<[y := deq0]> e) !! x = None /\ inv w' (<[x := q]> (<[y := sq0]> s)) (<[x := d]> (<[y := deq0]> e)) m.
Proof.
  intros Hinv Hy Hx. destruct (inv_env _ _ _ _ _ _ Hinv Hy) as (d & Hw & Hr).
  assert (Hxy : x <> y) by (intros ->; rewrite lookup_insert in Hx; discriminate).
  rewrite lookup_insert_ne in Hx by congruence. pose proof Hinv as (Hf & Hd & Hn & _). pose proof Hx as Hx'. apply Hd in Hx'.
  eexists d, _. split; [exact Hw|]. split; [rewrite lookup_insert_ne by congruence; exact Hx'|].
  assert (Hinv1 : inv (upd1 w x []) (<[x := sq0]> s) (<[x := deq0]> e) m).
  { eapply inv_put; [exact Hinv| |apply drep0]. rewrite (Hn _ Hx'). apply fr_refl. exact Hf. }
  pose proof (inv_swap _ _ _ _ x y sq0 q deq0 d Hinv1) as H.
  rewrite (insert_insert s), (insert_insert e) in H.
  rewrite (insert_commute s), (insert_commute e) by congruence.
  apply H; rewrite ?lookup_insert, ?lookup_insert_ne by congruence; auto.
Qed.
Lemma ddestroy0 m : ddestroy deq0 m = Ok m.
Proof. reflexivity. Qed.
(** Assignment from a deque that is not one of the variables. *)
Lemma assign_ok d q o m t q' o' m1 : drep d q o m -> fresh m -> fr [] m o' m1 -> drep t q' o' m1 ->
  post o m (assign_from d t m1) q'.
Proof.
  intros Hd Hf F1 Ht. unfold assign_from, dswap.
  assert (Hd1 : drep d q o m1) by (eapply drep_keep; [exact Hf|exact F1|intros b _ []|exact Hd]).
  destruct (ddestroy_ok esz _ _ _ _ Hd1 (fr_fresh _ _ _ _ F1)) as (m2 & E & F2). rewrite E. cbn [obind].
  assert (Hdis : forall b, In b o' -> ~ In b o).
  { intros b Hb Hb'. pose proof (drep_lt _ _ _ _ _ Hf Hd Hb') as Hlt. destruct F1 as (_ & _ & H3 & _). exact (H3 _ Hb Hlt). }
  exists t, o', m2. split; [reflexivity|]. split; [exact (drep_keep _ _ _ _ _ _ _ (fr_fresh _ _ _ _ F1) F2 Hdis Ht)|].
  eapply fr_trans.
  - eapply (fr_in o [] m o' m1 o (o ++ o')); [exact F1|intros; rewrite in_app_iff; cbn; tauto|intros; tauto].
  - eapply (fr_in o' o m1 [] m2 _ o'); [exact F2|intros; rewrite !in_app_iff; tauto|intros; rewrite in_app_iff; cbn; tauto].
Qed.

Lemma step_ok w s e m c s' : inv w s e m -> sstep s c = Some s' ->
  exists w' e' m', dstep esz (e, m) c = Ok (e', m') /\ inv w' s' e' m'.
Proof.
  intros Hinv Hs. pose proof Hinv as (Hf & Hd & Hn & _).
  destruct c as [x|x l|x y|x y|x|x a|x a|x i|x i|x|x|x|x y|x y|x y]; cbn [sstep dstep] in *.
  - apply new_Some in Hs as [Hx ->]. eapply step_declare; [exact Hinv|exact Hx|].
    exists deq0, [], m. split; [reflexivity|]. split; [apply drep0|apply fr_refl; exact Hf].
  - destruct (spush_all l sq0) as [q|] eqn:El; [|discriminate]. apply new_Some in Hs as [Hx ->].
    eapply step_declare; [exact Hinv|exact Hx|]. exact (push_all_ok esz Hblock _ _ _ _ _ _ (drep0 m) Hf El).
  - destruct (s !! y) as [q|] eqn:Hy; [|discriminate]. destruct (scopy q) as [q'|] eqn:Eq; [|discriminate].
    apply new_Some in Hs as [Hx ->]. destruct (inv_env _ _ _ _ _ _ Hinv Hy) as (d & Hw & Hr).
    unfold var. rewrite Hw. cbn [of_option obind].
    eapply step_declare; [exact Hinv|exact Hx|]. eapply dcopy_ok; eassumption.
  - destruct (s !! y) as [q|] eqn:Hy; [|discriminate]. apply new_Some in Hs as [Hx ->].
    destruct (step_move _ _ _ _ _ _ _ Hinv Hy Hx) as (d & w' & Hw & Hx' & Hinv').
    unfold var. rewrite Hw. cbn [of_option obind dmove dswap]. unfold declare. rewrite Hx'. cbn [obind].
    eexists _, _, _. split; [reflexivity|exact Hinv'].
  - destruct (s !! x) as [q|] eqn:Hx; [|discriminate]. injection Hs as <-.
    destruct (inv_env _ _ _ _ _ _ Hinv Hx) as (d & Hv & Hr). unfold var. rewrite Hv. cbn [of_option obind].
    destruct (ddestroy_ok esz _ _ _ _ Hr Hf) as (m' & -> & Hfr). cbn [obind].
    eexists _, _, _. split; [reflexivity|]. eapply inv_del; eassumption.
  - apply on_Some in Hs as (q & q' & Hx & Eq & ->). eapply step_update; [exact Hinv|exact Hx|]. intros d o Hr _.
    eapply emplace_back_ok; [exact Hblock|exact Hr|exact Hf|apply gives_val|exact Eq].
  - apply on_Some in Hs as (q & q' & Hx & Eq & ->). eapply step_update; [exact Hinv|exact Hx|]. intros d o Hr _.
    eapply emplace_front_ok; [exact Hblock|exact Hr|exact Hf|apply gives_val|exact Eq].
  - apply on_Some in Hs as (q & q' & Hx & Eq & ->). destruct (nth q i) as [a|] eqn:Ea; [|discriminate].
    eapply step_update; [exact Hinv|exact Hx|]. intros d o Hr _.
    destruct (gives_elem _ _ _ _ _ _ Hr Hf Ea) as (p & -> & Hg). cbn [obind].
    eapply emplace_back_ok; [exact Hblock|exact Hr|exact Hf|exact Hg|exact Eq].
  - apply on_Some in Hs as (q & q' & Hx & Eq & ->). destruct (nth q i) as [a|] eqn:Ea; [|discriminate].
    eapply step_update; [exact Hinv|exact Hx|]. intros d o Hr _.
    destruct (gives_elem _ _ _ _ _ _ Hr Hf Ea) as (p & -> & Hg). cbn [obind].
    eapply emplace_front_ok; [exact Hblock|exact Hr|exact Hf|exact Hg|exact Eq].
  - apply on_Some in Hs as (q & q' & Hx & Eq & ->). eapply step_update; [exact Hinv|exact Hx|]. intros d o Hr _.
    exact (pop_back_ok _ _ _ _ _ Hr Hf Eq).
  - apply on_Some in Hs as (q & q' & Hx & Eq & ->). eapply step_update; [exact Hinv|exact Hx|]. intros d o Hr _.
    exact (pop_front_ok _ _ _ _ _ Hr Hf Eq).
  - apply on_Some in Hs as (q & q' & Hx & [= <-] & ->). eapply step_update; [exact Hinv|exact Hx|]. intros d o Hr _.
    exact (dclear_ok _ _ _ _ Hr Hf).
  - destruct (s !! y) as [q|] eqn:Hy; [|discriminate]. destruct (scopy q) as [q'|] eqn:Eq; [|discriminate].
    apply on_Some in Hs as (p & p' & Hx & [= <-] & ->).
    destruct (inv_env _ _ _ _ _ _ Hinv Hy) as (d & Hw & Hr). unfold var at 1. rewrite Hw. cbn [of_option obind].
    destruct (dcopy_ok esz Hblock _ _ _ _ _ Hr Hf Eq) as (t & o' & m1 & -> & Ht & F1). cbn [obind].
    destruct (inv_env _ _ _ _ _ _ Hinv Hx) as (dx & Hv & Hrx).
    destruct (assign_ok _ _ _ _ _ _ _ _ Hrx Hf F1 Ht) as (d' & o2 & m2 & E & Hd2 & F2).
    unfold update, var. rewrite Hv. cbn [of_option obind]. rewrite E. cbn [obind].
    eexists _, _, _. split; [reflexivity|]. eapply inv_put; eassumption.
  - destruct (s !! y) as [q|] eqn:Hy; [|discriminate]. apply on_Some in Hs as (k & l' & Hx & [= <-] & ->).
    set (z := base.fresh (dom (<[y := sq0]> s))).
    assert (Hz : (<[y := sq0]> s) !! z = None) by (apply not_elem_of_dom, is_fresh).
    assert (Hzx : z <> x) by (intros ->; rewrite Hx in Hz; discriminate).
    destruct (step_move _ _ _ _ z y _ Hinv Hy Hz) as (t & w1 & Hw & Hz' & Hinv1).
    unfold var at 1. rewrite Hw. cbn [of_option obind dmove dswap].
    assert (Hx1 : (<[z := q]> (<[y := sq0]> s)) !! x = Some k) by (rewrite lookup_insert_ne by congruence; exact Hx).
    destruct (inv_env _ _ _ _ _ _ Hinv1 Hx1) as (d & Hv & Hr).
    pose proof Hv as Hv'. rewrite lookup_insert_ne in Hv' by congruence. unfold update, var. rewrite Hv'. cbn [of_option obind assign_from dswap].
    destruct (ddestroy_ok esz _ _ _ _ Hr Hf) as (m' & -> & Hfr). cbn [obind].
    eexists _, _, _. split; [reflexivity|].
    assert (Hzl : (<[z := q]> (<[y := sq0]> s)) !! z = Some q) by apply lookup_insert.
    assert (Hzw : (<[z := t]> (<[y := deq0]> e)) !! z = Some t) by apply lookup_insert.
    pose proof (inv_swap _ _ _ _ _ _ _ _ _ _ Hinv1 Hx1 Hzl Hv Hzw) as Hinv2.
    pose proof (inv_del _ _ _ _ z m' Hinv2) as H. cbn beta in H.
    assert (Esw : sw x z z = x).
    { unfold sw. destruct (Nat.eqb_spec z x) as [X|_]; [contradiction|]. rewrite Nat.eqb_refl. reflexivity. }
    rewrite Esw in H. specialize (H Hfr).
    rewrite !delete_insert_delete in H. rewrite !(delete_insert_ne _ _ x) in H by congruence.
    rewrite !delete_insert in H by assumption. exact H.
  - destruct (s !! x) as [p|] eqn:Hx; [|discriminate]. destruct (s !! y) as [q|] eqn:Hy; [|discriminate]. injection Hs as <-.
    destruct (inv_env _ _ _ _ _ _ Hinv Hx) as (c & Hv & _). destruct (inv_env _ _ _ _ _ _ Hinv Hy) as (d & Hw & _).
    unfold var. rewrite Hv, Hw. cbn [of_option obind dswap]. eexists _, _, _. split; [reflexivity|].
    eapply inv_swap; eassumption.
Qed.
Lemma run_ok cs : forall w s e m s', inv w s e m -> srun s cs = Some s' ->
  exists w' e' m', drun esz (e, m) cs = Ok (e', m') /\ inv w' s' e' m'.
Proof.
  induction cs as [|c cs IH]; intros w s e m s' Hinv Hs; cbn [srun drun] in *.
  - injection Hs as <-. eauto.
  - destruct (sstep s c) as [s1|] eqn:E; [|discriminate].
    destruct (step_ok _ _ _ _ _ _ Hinv E) as (w1 & e1 & m1 & E1 & Hinv1). rewrite E1. cbn [obind]. eauto.
Qed.

(** ** Queues and stacks are deques *)
Definition q2d (c : qcmd A) : dcmd A :=
  match c with
  | QNew x => DNew x | QCopy x y => DCopy x y | QMove x y => DMove x y | QDestroy x => DDestroy x
  | QPush x a => DPushBack x a | QPop x => DPopFront x | QAssign x y => DAssign x y | QSwap x y => DSwap x y
  end.
Definition k2d (c : kcmd A) : dcmd A :=
  match c with
  | KNew x => DNew x | KCopy x y => DCopy x y | KMove x y => DMove x y | KDestroy x => DDestroy x
  | KPush x a => DPushBack x a | KPop x => DPopBack x | KAssign x y => DAssign x y | KSwap x y => DSwap x y
  end.
Lemma std_swap_eq d c m : std_swap d c m = Ok (c, d, m).
Proof. reflexivity. Qed.
Lemma q_assign_eq d c m : q_assign d c m = assign_from d c m.
Proof. unfold q_assign. rewrite std_swap_eq. reflexivity. Qed.
Lemma qstep_eq e m c : qstep esz (e, m) c = dstep esz (e, m) (q2d c).
Proof.
  destruct c as [x|x y|x y|x|x a|x|x y|x y]; try reflexivity.
  cbn [qstep q2d dstep]. destruct (Nat.eqb_spec x y) as [->|Hne]; [|reflexivity].
  unfold var. destruct (e !! y) as [d|]; [|reflexivity]. cbn [of_option obind dmove dswap assign_from]. rewrite !ddestroy0. cbn [obind].
  rewrite ddestroy0. cbn [obind]. rewrite ddestroy0. cbn [obind].
  rewrite insert_insert. reflexivity.
Qed.
Lemma kstep_eq e m c : kstep esz (e, m) c = dstep esz (e, m) (k2d c).
Proof. destruct c; reflexivity. Qed.
Lemma qrun_eq cs : forall st : env * mem, qrun esz st cs = drun esz st (q2d <$> cs).
Proof.
  induction cs as [|c cs IH]; intros [e m]; [reflexivity|]. cbn [qrun fmap list_fmap drun]. rewrite qstep_eq.
  destruct (dstep esz (e, m) (q2d c)) as [s1| |]; [apply IH|reflexivity..].
Qed.
Lemma krun_eq cs : forall st : env * mem, krun esz st cs = drun esz st (k2d <$> cs).
Proof.
  induction cs as [|c cs IH]; intros [e m]; [reflexivity|]. cbn [krun fmap list_fmap drun]. rewrite kstep_eq.
  destruct (dstep esz (e, m) (k2d c)) as [s1| |]; [apply IH|reflexivity..].
Qed.

Definition rel (N : nat) (ls : gmap nat (list A)) s : Prop :=
  (forall x, ls !! x = elems <$> s !! x) /\ (forall x q, s !! x = Some q -> (len q <= N /\ room q <= N)%nat).
Lemma rel_some N ls s x l : rel N ls s -> ls !! x = Some l -> exists q, s !! x = Some q /\ elems q = l /\ (len q <= N)%nat /\ (room q <= N)%nat.
Proof.
  intros [H1 H2] Hx. rewrite H1 in Hx. destruct (s !! x) as [q|] eqn:E; [|discriminate]. injection Hx as <-.
  exists q. destruct (H2 _ _ E). auto.
Qed.
Lemma rel_none N ls s x : rel N ls s -> ls !! x = None -> s !! x = None.
Proof. intros [H1 _] Hx. rewrite H1 in Hx. destruct (s !! x); [discriminate|reflexivity]. Qed.
Lemma rel_put N ls s x q : rel N ls s -> (len q <= N)%nat -> (room q <= N)%nat -> rel N (<[x := elems q]> ls) (<[x := q]> s).
Proof.
  intros [H1 H2] Ha Hb. split.
  - intros y. destruct (decide (y = x)) as [->|Hne]; [rewrite !lookup_insert; reflexivity|rewrite !lookup_insert_ne by congruence; apply H1].
  - intros y p. destruct (decide (y = x)) as [->|Hne]; [rewrite lookup_insert; intros [= <-]; auto|rewrite lookup_insert_ne by congruence; apply H2].
Qed.
Lemma rel_del N ls s x : rel N ls s -> rel N (delete x ls) (delete x s).
Proof.
  intros [H1 H2]. split.
  - intros y. destruct (decide (y = x)) as [->|Hne]; [rewrite !lookup_delete; reflexivity|rewrite !lookup_delete_ne by congruence; apply H1].
  - intros y p. destruct (decide (y = x)) as [->|Hne]; [rewrite lookup_delete; discriminate|rewrite lookup_delete_ne by congruence; apply H2].
Qed.
Lemma rel_mono N M ls s : (N <= M)%nat -> rel N ls s -> rel M ls s.
Proof. intros H [H1 H2]. split; [exact H1|]. intros x q Hx. specialize (H2 _ _ Hx). lia. Qed.
Lemma qon_Some (ls : gmap nat (list A)) x f ls' : qon ls x f = Some ls' -> exists l l', ls !! x = Some l /\ f l = Some l' /\ ls' = <[x := l']> ls.
Proof. unfold qon. destruct (ls !! x) as [l|]; [|discriminate]. destruct (f l) as [l'|] eqn:E; [|discriminate]. intros [= <-]. eauto. Qed.
Lemma qnew_Some (ls : gmap nat (list A)) x l ls' : qnew ls x l = Some ls' -> ls !! x = None /\ ls' = <[x := l]> ls.
Proof. unfold qnew. destruct (ls !! x); [discriminate|]. intros [= <-]. auto. Qed.
Lemma on_eq s x q f q' : s !! x = Some q -> f q = Some q' -> on s x f = Some (<[x := q']> s).
Proof. unfold on. intros -> ->. reflexivity. Qed.
Lemma new_eq s x q : s !! x = None -> new s x q = Some (<[x := q]> s).
Proof. unfold new. intros ->. reflexivity. Qed.
Lemma spush_back_some a q : Z.of_nat (room q) + 1 < 2 ^ 31 ->
  exists q', spush_back a q = Some q' /\ elems q' = elems q ++ [a] /\ (room q' <= S (room q))%nat.
Proof.
  intros H. unfold spush_back. destruct (Nat.eqb (room q) 0); [eexists; split; [reflexivity|]; cbn; split; [reflexivity|lia]|].
  destruct (Nat.ltb _ _); [eexists; split; [reflexivity|]; cbn; split; [reflexivity|lia]|].
  destruct (Z.ltb_spec (Z.of_nat (room q) + 1) (2 ^ 31)); [|lia]. eexists; split; [reflexivity|]; cbn; split; [reflexivity|lia].
Qed.
Lemma spush_all_some l : forall q, Z.of_nat (room q) + Z.of_nat (length l) < 2 ^ 31 ->
  exists q', spush_all l q = Some q' /\ elems q' = elems q ++ l /\ (room q' <= room q + length l)%nat.
Proof.
  induction l as [|a l IH]; intros q H; cbn [spush_all length] in *.
  - exists q. rewrite app_nil_r. split; [reflexivity|]. split; [reflexivity|lia].
  - destruct (spush_back_some a q) as (q1 & -> & E1 & R1); [lia|].
    destruct (IH q1) as (q2 & E2 & E3 & R2); [lia|]. exists q2. split; [exact E2|]. split; [|lia].
    rewrite E3, E1, <- app_assoc. reflexivity.
Qed.
Lemma scopy_some q l : full (Some (elems q)) = Some l -> Z.of_nat (len q) < 2 ^ 31 ->
  elems q = l /\ exists q', scopy q = Some q' /\ elems q' = l /\ (len q' <= len q)%nat /\ (room q' <= len q)%nat.
Proof.
  unfold full, scopy, len. destruct (elems q) as [|a k] eqn:E; [discriminate|]. intros [= <-] H. split; [reflexivity|].
  destruct (spush_all_some (a :: k) sq0) as (q' & E1 & E2 & E3); [cbn [room sq0]; lia|].
  exists q'. split; [exact E1|]. cbn [elems sq0 app room] in *. rewrite E2. split; [reflexivity|]. split; lia.
Qed.

Ltac put := match goal with |- rel _ (<[?x := ?l]> _) (<[?x := ?q]> _) =>
    replace l with (elems q); [apply rel_put; [|cbn|cbn]|try reflexivity; try assumption] end.

Lemma common N ls s : rel N ls s -> Z.of_nat N + 1 < 2 ^ 31 ->
  (forall x ls', qnew ls x [] = Some ls' -> exists s', sstep s (DNew x) = Some s' /\ rel N ls' s') /\
  (forall x y ls', match full (ls !! y) with Some l => qnew ls x l | None => None end = Some ls' ->
     exists s', sstep s (DCopy x y) = Some s' /\ rel N ls' s') /\
  (forall x y ls', match ls !! y with Some l => qnew (<[y := []]> ls) x l | None => None end = Some ls' ->
     exists s', sstep s (DMove x y) = Some s' /\ rel N ls' s') /\
  (forall x ls', match ls !! x with Some _ => Some (delete x ls) | None => None end = Some ls' ->
     exists s', sstep s (DDestroy x) = Some s' /\ rel N ls' s') /\
  (forall x a ls', qon ls x (fun l => Some (l ++ [a])) = Some ls' -> exists s', sstep s (DPushBack x a) = Some s' /\ rel (S N) ls' s') /\
  (forall x y ls', match full (ls !! y) with Some l => qon ls x (fun _ => Some l) | None => None end = Some ls' ->
     exists s', sstep s (DAssign x y) = Some s' /\ rel N ls' s') /\
  (forall x y ls', match ls !! x, ls !! y with Some p, Some q => Some (<[y := p]> (<[x := q]> ls)) | _, _ => None end = Some ls' ->
     exists s', sstep s (DSwap x y) = Some s' /\ rel N ls' s').
Proof.
  intros Hrel HN. cbn [sstep]. split; [|split; [|split; [|split; [|split; [|split]]]]].
  - intros x ls' H. apply qnew_Some in H as [Hx ->]. rewrite (new_eq _ _ _ (rel_none _ _ _ _ Hrel Hx)).
    eexists. split; [reflexivity|]. put; [exact Hrel|lia|lia].
  - intros x y ls' H. destruct (full (ls !! y)) as [l|] eqn:E; [|discriminate]. apply qnew_Some in H as [Hx ->].
    destruct (ls !! y) as [l0|] eqn:Ey; [|discriminate]. destruct (rel_some _ _ _ _ _ Hrel Ey) as (q & -> & Eq & H1 & H2).
    rewrite <- Eq in E. destruct (scopy_some _ _ E) as (E1 & q' & -> & E2 & E3 & E4); [lia|].
    rewrite (new_eq _ _ _ (rel_none _ _ _ _ Hrel Hx)). eexists. split; [reflexivity|]. rewrite <- E2. apply rel_put; [exact Hrel|lia|lia].
  - intros x y ls' H. destruct (ls !! y) as [l|] eqn:Ey; [|discriminate]. apply qnew_Some in H as [Hx ->].
    destruct (rel_some _ _ _ _ _ Hrel Ey) as (q & -> & <- & H1 & H2).
    assert (Hrel1 : rel N (<[y := []]> ls) (<[y := sq0]> s)) by (change (@nil A) with (elems (@sq0 A)); apply rel_put; [exact Hrel|cbn; lia|cbn; lia]).
    rewrite (new_eq _ _ _ (rel_none _ _ _ _ Hrel1 Hx)). eexists. split; [reflexivity|]. apply rel_put; [exact Hrel1|lia|lia].
  - intros x ls' H. destruct (ls !! x) as [l|] eqn:Ex; [|discriminate]. injection H as <-.
    destruct (rel_some _ _ _ _ _ Hrel Ex) as (q & -> & _). eexists. split; [reflexivity|]. apply rel_del, Hrel.
  - intros x a ls' H. apply qon_Some in H as (l & l' & Hx & [= <-] & ->).
    destruct (rel_some _ _ _ _ _ Hrel Hx) as (q & Hq & <- & H1 & H2).
    destruct (spush_back_some a q) as (q' & E & E1 & E2); [lia|]. rewrite (on_eq _ _ _ _ _ Hq E).
    eexists. split; [reflexivity|]. rewrite <- E1. apply rel_put; [eapply rel_mono; [|exact Hrel]; lia| |lia].
    unfold len in *. rewrite E1, app_length. cbn [length]. lia.
  - intros x y ls' H. destruct (full (ls !! y)) as [l|] eqn:E; [|discriminate]. apply qon_Some in H as (k & l' & Hx & [= <-] & ->).
    destruct (ls !! y) as [l0|] eqn:Ey; [|discriminate]. destruct (rel_some _ _ _ _ _ Hrel Ey) as (q & -> & Eq & H1 & H2).
    rewrite <- Eq in E. destruct (scopy_some _ _ E) as (E1 & q' & -> & E2 & E3 & E4); [lia|].
    destruct (rel_some _ _ _ _ _ Hrel Hx) as (p & Hp & _). rewrite (on_eq _ _ _ _ q' Hp eq_refl).
    eexists. split; [reflexivity|]. rewrite <- E2. apply rel_put; [exact Hrel|lia|lia].
  - intros x y ls' H. destruct (ls !! x) as [l|] eqn:Ex; [|discriminate]. destruct (ls !! y) as [k|] eqn:Ey; [|discriminate]. injection H as <-.
    destruct (rel_some _ _ _ _ _ Hrel Ex) as (p & -> & <- & Hp1 & Hp2). destruct (rel_some _ _ _ _ _ Hrel Ey) as (q & -> & <- & Hq1 & Hq2).
    eexists. split; [reflexivity|]. apply rel_put; [apply rel_put; assumption|lia|lia].
Qed.
Definition qgrow (c : qcmd A) : nat := match c with QPush _ _ => 1 | _ => 0 end.
Definition kgrow (c : kcmd A) : nat := match c with KPush _ _ => 1 | _ => 0 end.
Lemma qspec_step N ls s c ls' : rel N ls s -> Z.of_nat N + 1 < 2 ^ 31 -> qspec ls c = Some ls' ->
  exists s', sstep s (q2d c) = Some s' /\ rel (N + qgrow c) ls' s'.
Proof.
  intros Hrel HN H. destruct (common _ _ _ Hrel HN) as (C1 & C2 & C3 & C4 & C5 & C6 & C7).
  destruct c as [x|x y|x y|x|x a|x|x y|x y]; cbn [qspec q2d qgrow] in *; rewrite ?Nat.add_0_r, ?Nat.add_1_r; auto.
  apply qon_Some in H as (l & l' & Hx & E & ->). destruct l as [|a l]; [discriminate|]. injection E as <-.
  destruct (rel_some _ _ _ _ _ Hrel Hx) as (q & Hq & El & H1 & H2). cbn [sstep].
  erewrite on_eq; [|exact Hq|unfold spop_front; rewrite El; reflexivity]. eexists. split; [reflexivity|].
  put; [exact Hrel|unfold len in *; cbn; rewrite El in H1; cbn in H1; lia|exact H2].
Qed.
Lemma kspec_step N ls s c ls' : rel N ls s -> Z.of_nat N + 1 < 2 ^ 31 -> kspec ls c = Some ls' ->
  exists s', sstep s (k2d c) = Some s' /\ rel (N + kgrow c) ls' s'.
Proof.
  intros Hrel HN H. destruct (common _ _ _ Hrel HN) as (C1 & C2 & C3 & C4 & C5 & C6 & C7).
  destruct c as [x|x y|x y|x|x a|x|x y|x y]; cbn [kspec k2d kgrow] in *; rewrite ?Nat.add_0_r, ?Nat.add_1_r; auto.
  apply qon_Some in H as (l & l' & Hx & E & ->). destruct l as [|a l]; [discriminate|]. injection E as <-.
  destruct (rel_some _ _ _ _ _ Hrel Hx) as (q & Hq & El & H1 & H2). cbn [sstep].
  erewrite on_eq; [|exact Hq|unfold spop_back; rewrite El; reflexivity]. eexists. split; [reflexivity|].
  put; [exact Hrel| |exact H2|].
  - unfold len in *. cbn [elems keep] in *. rewrite take_length. lia.
  - cbn [elems keep]. unfold len. rewrite El. reflexivity.
Qed.
Lemma rel0 : rel 0 ∅ ∅.
Proof. split; [intros x; rewrite !lookup_empty; reflexivity|]. intros x q H. rewrite lookup_empty in H. discriminate. Qed.
Lemma qspecs_run cs : forall N ls s ls', rel N ls s -> Z.of_nat N + Z.of_nat (qpushes cs) < 2 ^ 31 - 1 -> qspecs ls cs = Some ls' ->
  exists s', srun s (q2d <$> cs) = Some s' /\ rel (N + qpushes cs) ls' s'.
Proof.
  induction cs as [|c cs IH]; intros N ls s ls' Hrel HN H; cbn [qspecs fmap list_fmap srun] in *.
  - injection H as <-. exists s. split; [reflexivity|]. cbn. rewrite Nat.add_0_r. exact Hrel.
  - assert (E : qpushes (c :: cs) = (qgrow c + qpushes cs)%nat) by (unfold qpushes; destruct c; reflexivity). rewrite E in *.
    destruct (qspec ls c) as [ls1|] eqn:E1; [|discriminate].
    destruct (qspec_step _ _ _ _ _ Hrel ltac:(lia) E1) as (s1 & -> & Hrel1).
    rewrite Nat.add_assoc. apply (IH _ ls1); [exact Hrel1|lia|exact H].
Qed.
End run.
