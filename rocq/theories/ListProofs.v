(** The memory of the list model and the sequences it represents. *)
From stdpp Require Import gmap list.
From Coq Require Import ZArith Lia.
From Verif Require Import Base ListModel ListSpec.
Local Open Scope outcome_scope.

Section proofs.
Context {A : Type}.
Notation heap := (heap A).
Notation seq := (list (nat * A)).
Implicit Types (s t : heap) (a b z : loc).

(** Fields as functions. *)
Definition nxl s z : option (option loc) := nx <$> cells s !! z.
Definition pvl s z : option (option loc) := pv <$> cells s !! z.
Definition vll s z : option (option A) := vl <$> cells s !! z.
Definition upd {B} (f : loc -> B) a (v : B) : loc -> B := fun z => if decide (z = a) then v else f z.
Lemma upd_eq {B} (f : loc -> B) a v : upd f a v a = v. Proof. unfold upd. by rewrite decide_True. Qed.
Lemma upd_ne {B} (f : loc -> B) a v z : z <> a -> upd f a v z = f z.
Proof. intros. unfold upd. by rewrite decide_False. Qed.

Record sees s (n p : loc -> option (option loc)) (v : loc -> option (option A)) (g : gmap nat Z) (k : nat) : Prop := {
  see_nx : forall z, nxl s z = n z; see_pv : forall z, pvl s z = p z; see_vl : forall z, vll s z = v z;
  see_sizes : sizes s = g; see_made : made s = k }.
Lemma sees_refl s : sees s (nxl s) (pvl s) (vll s) (sizes s) (made s).
Proof. done. Qed.

Lemma get_ok s a : is_Some (vll s a) -> exists c, get a s = Ok c /\ nxl s a = Some (nx c) /\ pvl s a = Some (pv c) /\ vll s a = Some (vl c).
Proof.
  unfold get, nxl, pvl, vll. intros [o Ho]. destruct (cells s !! a) as [c|]; [|done]. exists c. done.
Qed.
Lemma nx_vl s a o : nxl s a = Some o -> is_Some (vll s a).
Proof. unfold nxl, vll. destruct (cells s !! a); [|done]. eauto. Qed.
Lemma pv_vl s a o : pvl s a = Some o -> is_Some (vll s a).
Proof. unfold pvl, vll. destruct (cells s !! a); [|done]. eauto. Qed.

Lemma set_nx_ok s a o n p v g k : sees s n p v g k -> is_Some (v a) ->
  exists t, set_nx a o s = Ok t /\ sees t (upd n a (Some o)) p v g k.
Proof.
  intros S E. rewrite <- (see_vl _ _ _ _ _ _ S) in E. destruct (get_ok s a E) as (c & Hc & Hn & Hp & Hv).
  unfold set_nx. rewrite Hc. cbn [obind]. eexists. split; [reflexivity|].
  split; cbn [put sizes made]; try apply S; intros z; unfold nxl, pvl, vll, put, upd; cbn [cells];
    (destruct (decide (z = a)) as [->|Hz]; [rewrite lookup_insert|rewrite lookup_insert_ne by done]); cbn;
    rewrite <- ?(see_nx _ _ _ _ _ _ S), <- ?(see_pv _ _ _ _ _ _ S), <- ?(see_vl _ _ _ _ _ _ S); done.
Qed.
Lemma set_pv_ok s a o n p v g k : sees s n p v g k -> is_Some (v a) ->
  exists t, set_pv a o s = Ok t /\ sees t n (upd p a (Some o)) v g k.
Proof.
  intros S E. rewrite <- (see_vl _ _ _ _ _ _ S) in E. destruct (get_ok s a E) as (c & Hc & Hn & Hp & Hv).
  unfold set_pv. rewrite Hc. cbn [obind]. eexists. split; [reflexivity|].
  split; cbn [put sizes made]; try apply S; intros z; unfold nxl, pvl, vll, put, upd; cbn [cells];
    (destruct (decide (z = a)) as [->|Hz]; [rewrite lookup_insert|rewrite lookup_insert_ne by done]); cbn;
    rewrite <- ?(see_nx _ _ _ _ _ _ S), <- ?(see_pv _ _ _ _ _ _ S), <- ?(see_vl _ _ _ _ _ _ S); done.
Qed.
Lemma read_ok s a n p v g k : sees s n p v g k -> is_Some (v a) ->
  exists c, get a s = Ok c /\ n a = Some (nx c) /\ p a = Some (pv c) /\ v a = Some (vl c).
Proof.
  intros S E. rewrite <- (see_vl _ _ _ _ _ _ S) in E. destruct (get_ok s a E) as (c & Hc & Hn & Hp & Hv).
  exists c. rewrite <- (see_nx _ _ _ _ _ _ S), <- (see_pv _ _ _ _ _ _ S), <- (see_vl _ _ _ _ _ _ S). done.
Qed.

Ltac rd S a c := let Hc := fresh "Hc" in let Hn := fresh "Hn" in let Hp := fresh "Hp" in let Hv := fresh "Hv" in
  destruct (read_ok _ a _ _ _ _ _ S) as (c & Hc & Hn & Hp & Hv); [eauto|rewrite Hc; cbn [obind]].
Ltac wn S a o := let t := fresh "t" in let E := fresh "E" in let S' := fresh "S" in
  destruct (set_nx_ok _ a o _ _ _ _ _ S) as (t & E & S'); [eauto|rewrite E; cbn [obind]; clear E; clear S; rename S' into S].
Ltac wp S a o := let t := fresh "t" in let E := fresh "E" in let S' := fresh "S" in
  destruct (set_pv_ok _ a o _ _ _ _ _ S) as (t & E & S'); [eauto|rewrite E; cbn [obind]; clear E; clear S; rename S' into S].

(** Exact effect of the node operations. *)
Lemma link_next_null s a r n p v g k : sees s n p v g k -> n a = Some None -> is_Some (v a) -> is_Some (v r) ->
  exists t, link_next a r s = Ok t /\ sees t (upd n a (Some (Some r))) (upd p r (Some (Some a))) v g k.
Proof.
  intros S Ha Va Vr. unfold link_next. rd S a c. rewrite Ha in Hn. injection Hn as <-. cbn [obind].
  wn S a (Some r). wp S r (Some a). eauto.
Qed.
Lemma link_next_some s a r q n p v g k : sees s n p v g k -> n a = Some (Some q) -> is_Some (v a) -> is_Some (v r) -> is_Some (v q) ->
  exists t, link_next a r s = Ok t /\
    sees t (upd (upd n r (Some (Some q))) a (Some (Some r))) (upd (upd p q (Some (Some r))) r (Some (Some a))) v g k.
Proof.
  intros S Ha Va Vr Vq. unfold link_next. rd S a c. rewrite Ha in Hn. injection Hn as <-. cbn [obind].
  wp S q (Some r). wn S r (Some q). wn S a (Some r). wp S r (Some a). eauto.
Qed.
Lemma link_prv_null s a r n p v g k : sees s n p v g k -> p a = Some None -> is_Some (v a) -> is_Some (v r) ->
  exists t, link_prv a r s = Ok t /\ sees t (upd n r (Some (Some a))) (upd p a (Some (Some r))) v g k.
Proof.
  intros S Ha Va Vr. unfold link_prv. rd S a c. rewrite Ha in Hp. injection Hp as <-. cbn [obind].
  wn S r (Some a). wp S a (Some r). eauto.
Qed.
Lemma link_prv_some s a r q n p v g k : sees s n p v g k -> p a = Some (Some q) -> is_Some (v a) -> is_Some (v r) -> is_Some (v q) ->
  exists t, link_prv a r s = Ok t /\
    sees t (upd (upd n q (Some (Some r))) r (Some (Some a))) (upd (upd p r (Some (Some q))) a (Some (Some r))) v g k.
Proof.
  intros S Ha Va Vr Vq. unfold link_prv. rd S a c. rewrite Ha in Hp. injection Hp as <-. cbn [obind].
  wn S q (Some r). rd S a c'. rewrite Ha in Hp. injection Hp as <-.
  wp S r (Some q). wn S r (Some a). wp S a (Some r). eauto.
Qed.
Lemma unlink_next_ok s a q n p v g k : sees s n p v g k -> n a = Some (Some q) -> is_Some (v a) -> is_Some (v q) ->
  exists t, unlink_next a s = Ok t /\ sees t (upd n a (Some None)) (upd p q (Some None)) v g k.
Proof.
  intros S Ha Va Vq. unfold unlink_next. rd S a c. rewrite Ha in Hn. injection Hn as <-. cbn [obind].
  wp S q (@None loc). wn S a (@None loc). eauto.
Qed.
Lemma unlink_prv_some s a q n p v g k : sees s n p v g k -> p a = Some (Some q) -> is_Some (v a) -> is_Some (v q) ->
  exists t, unlink_prv a s = Ok t /\ sees t (upd n q (Some None)) (upd p a (Some None)) v g k.
Proof.
  intros S Ha Va Vq. unfold unlink_prv. rd S a c. rewrite Ha in Hp. injection Hp as <-. cbn [obind].
  wn S q (@None loc). wp S a (@None loc). eauto.
Qed.
Lemma unlink_prv_null s a n p v g k : sees s n p v g k -> p a = Some None -> is_Some (v a) ->
  exists t, unlink_prv a s = Ok t /\ sees t n (upd p a (Some None)) v g k.
Proof.
  intros S Ha Va. unfold unlink_prv. rd S a c. rewrite Ha in Hp. injection Hp as <-. cbn [obind].
  wp S a (@None loc). eauto.
Qed.
Lemma unlink_ok s a y q n p v g k : sees s n p v g k -> n a = Some (Some q) -> p a = Some (Some y) -> q <> a -> y <> a ->
  is_Some (v a) -> is_Some (v q) -> is_Some (v y) ->
  exists t, unlink a s = Ok t /\
    sees t (upd (upd n y (Some (Some q))) a (Some None)) (upd (upd p q (Some (Some y))) a (Some None)) v g k.
Proof.
  intros S Ha Pa Hq Hy Va Vq Vy. unfold unlink. rd S a c. rewrite Ha in Hn. rewrite Pa in Hp.
  injection Hn as <-. injection Hp as <-. cbn [obind].
  wp S q (Some y). rd S a c'. rewrite upd_ne in Hp by done. rewrite Ha in Hn. rewrite Pa in Hp.
  injection Hn as <-. injection Hp as <-. wn S y (Some q). wn S a (@None loc). wp S a (@None loc). eauto.
Qed.
Lemma destory_ok s i n p v g k : sees s n p v g k -> is_Some (v (N i)) ->
  exists t, destory_node (N i) s = Ok t /\ sees t (upd n (N i) None) (upd p (N i) None) (upd v (N i) None) g k.
Proof.
  intros S E. unfold destory_node. rd S (N i) c. eexists. split; [reflexivity|].
  split; cbn [sizes made]; try apply S; intros z; unfold nxl, pvl, vll, upd; cbn [cells];
    (destruct (decide (z = N i)) as [->|Hz]; [rewrite lookup_delete|rewrite lookup_delete_ne by done]); cbn;
    rewrite <- ?(see_nx _ _ _ _ _ _ S), <- ?(see_pv _ _ _ _ _ _ S), <- ?(see_vl _ _ _ _ _ _ S); done.
Qed.
Lemma create_ok s x n p v g k : sees s n p v g k ->
  exists t, create_node x s = (N k, t) /\
    sees t (upd n (N k) (Some None)) (upd p (N k) (Some None)) (upd v (N k) (Some (Some x))) g (S k).
Proof.
  intros S. unfold create_node. rewrite (see_made _ _ _ _ _ _ S). eexists. split; [reflexivity|].
  split; cbn [sizes made]; try apply S; try reflexivity; intros z; unfold nxl, pvl, vll, upd; cbn [cells];
    (destruct (decide (z = N k)) as [->|Hz]; [rewrite lookup_insert|rewrite lookup_insert_ne by done]); cbn;
    rewrite <- ?(see_nx _ _ _ _ _ _ S), <- ?(see_pv _ _ _ _ _ _ S), <- ?(see_vl _ _ _ _ _ _ S); done.
Qed.
Lemma set_size_ok s x c c0 n p v g k : sees s n p v g k -> g !! x = Some c0 ->
  exists t, set_size x c s = Ok t /\ sees t n p v (<[x := c]> g) k.
Proof.
  intros S E. unfold set_size, size. rewrite (see_sizes _ _ _ _ _ _ S), E. cbn [of_option obind]. eexists. split; [reflexivity|].
  split; cbn [sizes made]; try apply S. done.
Qed.
Lemma size_ok s x c0 n p v g k : sees s n p v g k -> g !! x = Some c0 -> size x s = Ok c0.
Proof. intros S E. unfold size. by rewrite (see_sizes _ _ _ _ _ _ S), E. Qed.
Lemma next_ok lax s a q n p v g k : sees s n p v g k -> n a = Some (Some q) -> next lax a s = Ok q.
Proof.
  intros S E. unfold next, get_next. pose proof E as E'. rewrite <- (see_nx _ _ _ _ _ _ S) in E'. apply nx_vl in E'.
  rewrite (see_vl _ _ _ _ _ _ S) in E'. rd S a c. rewrite E in Hn. injection Hn as <-. done.
Qed.
Lemma prev_ok lax s a q n p v g k : sees s n p v g k -> p a = Some (Some q) -> prev lax a s = Ok q.
Proof.
  intros S E. unfold prev, get_prv. pose proof E as E'. rewrite <- (see_pv _ _ _ _ _ _ S) in E'. apply pv_vl in E'.
  rewrite (see_vl _ _ _ _ _ _ S) in E'. rd S a c. rewrite E in Hp. injection Hp as <-. done.
Qed.
Lemma value_ok s a x n p v g k : sees s n p v g k -> v a = Some (Some x) -> value a s = Ok x.
Proof.
  intros S E. unfold value. rd S a c. rewrite E in Hv. injection Hv as <-. done.
Qed.
Lemma set_value_ok s a x x0 n p v g k : sees s n p v g k -> v a = Some (Some x0) ->
  exists t, set_value a x s = Ok t /\ sees t n p (upd v a (Some (Some x))) g k.
Proof.
  intros S E. unfold set_value. rd S a c. rewrite E in Hv. injection Hv as <-. cbn [of_option obind].
  eexists. split; [reflexivity|].
  split; cbn [put sizes made]; try apply S; intros z; unfold nxl, pvl, vll, put, upd; cbn [cells];
    (destruct (decide (z = a)) as [->|Hz]; [rewrite lookup_insert|rewrite lookup_insert_ne by done]); cbn; try congruence;
    rewrite <- ?(see_nx _ _ _ _ _ _ S), <- ?(see_pv _ _ _ _ _ _ S), <- ?(see_vl _ _ _ _ _ _ S); done.
Qed.

(** A chain of locations linked both ways. *)
Definition link (n p : loc -> option (option loc)) a b : Prop := n a = Some (Some b) /\ p b = Some (Some a).
Fixpoint links n p (L : list loc) : Prop :=
  match L with
  | a :: ((b :: _) as L') => link n p a b /\ links n p L'
  | _ => True
  end.
Lemma links_cons n p a b L : links n p (a :: b :: L) <-> link n p a b /\ links n p (b :: L).
Proof. done. Qed.
Lemma links_app n p (L1 : list loc) a L2 : links n p (L1 ++ a :: L2) <-> links n p (L1 ++ [a]) /\ links n p (a :: L2).
Proof.
  induction L1 as [|x L1 IH]; [cbn; tauto|].
  destruct L1 as [|y L1].
  - cbn [app]. rewrite links_cons. cbn. tauto.
  - cbn [app] in IH |- *. rewrite !links_cons, IH. tauto.
Qed.
(** [n] matters on all but the last, [p] on all but the first. *)
Lemma links_frame n p n' p' L1 b : forall a, (forall z, z ∈ a :: L1 -> n' z = n z) -> (forall z, z ∈ L1 ++ [b] -> p' z = p z) ->
  links n p (a :: L1 ++ [b]) -> links n' p' (a :: L1 ++ [b]).
Proof.
  induction L1 as [|y L1 IH]; intros a Hn Hp; cbn [app].
  - rewrite !links_cons. intros [[H1 H2] _]. split; [|done]. split; [rewrite Hn|rewrite Hp]; set_solver.
  - rewrite !links_cons. intros [[H1 H2] H3]. split; [split; [rewrite Hn|rewrite Hp]; set_solver|].
    apply IH; [set_solver|set_solver|done].
Qed.
Lemma links_frame' n p n' p' L : (forall z, z ∈ L -> n' z = n z) -> (forall z, z ∈ L -> p' z = p z) -> links n p L -> links n' p' L.
Proof.
  intros Hn Hp. induction L as [|a [|b L] IH]; [done|done|]. rewrite !links_cons. intros [[H1 H2] H3].
  split; [split; [rewrite Hn|rewrite Hp]; set_solver|]. apply IH; [set_solver|set_solver|done].
Qed.

Definition ids (l : seq) : list nat := fst <$> l.
Definition locs (l : seq) : list loc := N <$> ids l.
Lemma locs_app l1 l2 : locs (l1 ++ l2) = locs l1 ++ locs l2.
Proof. unfold locs, ids. by rewrite !fmap_app. Qed.
Lemma locs_in l k : N k ∈ locs l <-> k ∈ ids l.
Proof. unfold locs. rewrite elem_of_list_fmap. split; [intros (y & [= ->] & H); done|eauto]. Qed.
Lemma locs_H l x : H x ∉ locs l.
Proof. unfold locs. rewrite elem_of_list_fmap. intros (y & [=] & _). Qed.
Lemma locs_nodup l : NoDup (ids l) -> NoDup (locs l).
Proof. intros HN. unfold locs. apply NoDup_fmap_2; [intros ?? [= ->]; done|done]. Qed.

(** Representation of one list. *)
Record lrep n p (v : loc -> option (option A)) (g : gmap nat Z) (x : nat) (l : seq) : Prop := {
  lr_links : links n p (H x :: locs l ++ [H x]);
  lr_head : v (H x) = Some None;
  lr_val : forall k (d : A), (k, d) ∈ l -> v (N k) = Some (Some d);
  lr_size : g !! x = Some (Z.of_nat (length l)) }.
Record rel (W : gmap nat seq) (k : nat) n p (v : loc -> option (option A)) (g : gmap nat Z) : Prop := {
  r_rep : forall x l, W !! x = Some l -> lrep n p v g x l;
  r_nodup : forall x l, W !! x = Some l -> NoDup (ids l);
  r_lt : forall x l i, W !! x = Some l -> i ∈ ids l -> i < k;
  r_disj : forall x y l m i, W !! x = Some l -> W !! y = Some m -> i ∈ ids l -> i ∈ ids m -> x = y;
  r_node : forall i, is_Some (v (N i)) -> exists x l, W !! x = Some l /\ i ∈ ids l;
  r_head : forall x, W !! x = None -> v (H x) = None;
  r_size : forall x, W !! x = None -> g !! x = None }.
Definition repr (W : gmap nat seq) (k : nat) (s : heap) : Prop :=
  exists n p v g, sees s n p v g k /\ rel W k n p v g.

Lemma links_in n p v g x l z : lrep n p v g x l -> z ∈ H x :: locs l -> is_Some (v z).
Proof.
  intros R Hz. apply elem_of_cons in Hz as [->|Hz]; [rewrite (lr_head _ _ _ _ _ _ R); eauto|].
  destruct z as [y|k]; [by apply locs_H in Hz|]. apply locs_in in Hz. apply elem_of_list_fmap in Hz as ([k' a] & -> & Hi).
  cbn [fst]. rewrite (lr_val _ _ _ _ _ _ R k' a Hi). eauto.
Qed.

(** Changing one list: [l] becomes [l'] with nodes of [l] and nodes numbered from [k] on. *)
Lemma rel_change W k n p v g x l l' k' n' p' v' g' :
  rel W k n p v g -> W !! x = Some l -> k <= k' ->
  lrep n' p' v' g' x l' -> NoDup (ids l') -> (forall i, i ∈ ids l' -> i ∈ ids l \/ k <= i < k') ->
  (forall z, z <> H x -> z ∉ locs l -> (forall i, k <= i < k' -> z <> N i) -> n' z = n z /\ p' z = p z /\ v' z = v z) ->
  (forall i, i ∈ ids l \/ k <= i < k' -> i ∉ ids l' -> v' (N i) = None) ->
  (forall y, y <> x -> g' !! y = g !! y) ->
  rel (<[x := l']> W) k' n' p' v' g'.
Proof.
  intros R Hx Hk L' ND Sub Same Gone Sz.
  assert (Other : forall y m, W !! y = Some m -> y <> x -> forall z, z ∈ H y :: locs m -> n' z = n z /\ p' z = p z /\ v' z = v z).
  { intros y m Hy Hne z Hz. apply Same.
    - intros ->. apply elem_of_cons in Hz as [[= <-]|Hz]; [done|by apply locs_H in Hz].
    - intros Hz2. destruct z as [u|i]; [by apply locs_H in Hz2|]. apply elem_of_cons in Hz as [Hz|Hz]; [done|].
      apply Hne. exact (r_disj _ _ _ _ _ _ R y x m l i Hy Hx (proj1 (locs_in _ _) Hz) (proj1 (locs_in _ _) Hz2)).
    - intros i Hi ->. apply elem_of_cons in Hz as [Hz|Hz]; [done|].
      pose proof (r_lt _ _ _ _ _ _ R y m i Hy (proj1 (locs_in _ _) Hz)). lia. }
  split.
  - intros y m. destruct (decide (y = x)) as [->|Hne].
    + rewrite lookup_insert. intros [= <-]. exact L'.
    + rewrite lookup_insert_ne by done. intros Hy. pose proof (r_rep _ _ _ _ _ _ R y m Hy) as Rm.
      pose proof (Other y m Hy Hne) as O. destruct Rm as [R1 R2 R3 R4]. split.
      * apply (links_frame n p); [intros z Hz; apply O; set_solver|intros z Hz; apply O; set_solver|done].
      * destruct (O (H y)) as (_ & _ & ->); [set_solver|done].
      * intros i a Hi. destruct (O (N i)) as (_ & _ & ->); [|eauto].
        apply elem_of_cons. right. apply locs_in. apply elem_of_list_fmap. exists (i, a). done.
      * rewrite Sz by done. done.
  - intros y m. destruct (decide (y = x)) as [->|Hne]; [rewrite lookup_insert; intros [= <-]; done|].
    rewrite lookup_insert_ne by done. apply (r_nodup _ _ _ _ _ _ R).
  - intros y m i. destruct (decide (y = x)) as [->|Hne].
    + rewrite lookup_insert. intros [= <-] Hi. destruct (Sub i Hi) as [Hi'|Hi']; [|lia].
      pose proof (r_lt _ _ _ _ _ _ R x l i Hx Hi'). lia.
    + rewrite lookup_insert_ne by done. intros Hy Hi. pose proof (r_lt _ _ _ _ _ _ R y m i Hy Hi). lia.
  - assert (D : forall y m i, y <> x -> W !! y = Some m -> i ∈ ids l' -> i ∈ ids m -> False).
    { intros y m i Hne Hy Hi Hm. destruct (Sub i Hi) as [Hi'|Hi'].
      - apply Hne. exact (r_disj _ _ _ _ _ _ R y x m l i Hy Hx Hm Hi').
      - pose proof (r_lt _ _ _ _ _ _ R y m i Hy Hm). lia. }
    intros y1 y2 m1 m2 i. destruct (decide (y1 = x)) as [->|H1]; destruct (decide (y2 = x)) as [->|H2];
      [done|rewrite lookup_insert, lookup_insert_ne by done|rewrite lookup_insert_ne, lookup_insert by done
      |rewrite !lookup_insert_ne by done].
    + intros [= <-] Hy Hi Hm. exfalso. eauto.
    + intros Hy [= <-] Hi Hm. exfalso. eauto.
    + apply (r_disj _ _ _ _ _ _ R).
  - intros i Hi. destruct (decide (i ∈ ids l')) as [Hl|Hl].
    { exists x, l'. by rewrite lookup_insert. }
    destruct (decide (i ∈ ids l)) as [Hl2|Hl2].
    { rewrite (Gone i) in Hi; [by destruct Hi|auto|done]. }
    destruct (decide (k <= i < k')) as [Hl3|Hl3].
    { rewrite (Gone i) in Hi; [by destruct Hi|auto|done]. }
    destruct (Same (N i)) as (_ & _ & E); [done|by rewrite locs_in|intros j Hj [= ->]; done|]. rewrite E in Hi.
    destruct (r_node _ _ _ _ _ _ R i Hi) as (y & m & Hy & Hm). exists y, m. split; [|done].
    rewrite lookup_insert_ne; [done|]. intros ->. congruence.
  - intros y Hy. destruct (decide (y = x)) as [->|Hne]; [by rewrite lookup_insert in Hy|].
    rewrite lookup_insert_ne in Hy by done. destruct (Same (H y)) as (_ & _ & ->); [congruence|apply locs_H|done|].
    by apply (r_head _ _ _ _ _ _ R).
  - intros y Hy. destruct (decide (y = x)) as [->|Hne]; [by rewrite lookup_insert in Hy|].
    rewrite lookup_insert_ne in Hy by done. rewrite Sz by done. by apply (r_size _ _ _ _ _ _ R).
Qed.

(** Neighbours of a cut point: the chain of [l1 ++ l2] around list [x]. *)
Definition before x (l1 : seq) : loc := default (H x) (last (locs l1)).
Definition behind x (l2 : seq) : loc := default (H x) (head (locs l2)).
Lemma before_nil x : before x [] = H x. Proof. done. Qed.
Lemma before_snoc x l e : before x (l ++ [e]) = N (fst e).
Proof. unfold before. rewrite locs_app. cbn. by rewrite last_snoc. Qed.
Lemma behind_cons x e l : behind x (e :: l) = N (fst e).
Proof. done. Qed.

Lemma before_split x l1 : exists L1, H x :: locs l1 = L1 ++ [before x l1] /\ (forall z, z ∈ L1 -> z ∈ H x :: locs l1).
Proof.
  destruct l1 as [|e l _] using rev_ind; [exists []; split; [done|set_solver]|].
  rewrite before_snoc, locs_app. exists (H x :: locs l). split; [done|set_solver].
Qed.
Lemma behind_split x l2 : exists L2, locs l2 ++ [H x] = behind x l2 :: L2 /\ (forall z, z ∈ L2 -> z ∈ locs l2 ++ [H x]).
Proof.
  destruct l2 as [|e l]; [exists []; split; [done|set_solver]|]. rewrite behind_cons. exists (locs l ++ [H x]). split; [done|set_solver].
Qed.

Lemma chain_split n p x l1 l2 : links n p (H x :: locs (l1 ++ l2) ++ [H x]) <->
  links n p (H x :: locs l1) /\ link n p (before x l1) (behind x l2) /\ links n p (locs l2 ++ [H x]).
Proof.
  destruct (before_split x l1) as (L1 & E1 & _). destruct (behind_split x l2) as (L2 & E2 & _).
  rewrite locs_app. replace (H x :: (locs l1 ++ locs l2) ++ [H x]) with ((H x :: locs l1) ++ (locs l2 ++ [H x])) by (cbn; by rewrite <- app_assoc).
  rewrite E1, E2, <- app_assoc. cbn [app]. rewrite links_app, links_cons. tauto.
Qed.
(** Frame for the two outer parts. *)
Lemma front_frame n p n' p' x l1 : NoDup (ids l1) ->
  (forall z, z ∈ H x :: locs l1 -> z <> before x l1 -> n' z = n z) -> (forall z, z ∈ locs l1 -> p' z = p z) ->
  links n p (H x :: locs l1) -> links n' p' (H x :: locs l1).
Proof.
  intros ND Hn Hp. destruct l1 as [|e l _] using rev_ind; [done|].
  rewrite before_snoc, locs_app in *. cbn [locs ids fmap list_fmap] in *.
  assert (Hnot : N (fst e) ∉ locs l).
  { rewrite locs_in. unfold ids in ND |- *. rewrite fmap_app in ND. apply NoDup_app in ND as (_ & D & _).
    intros Hin. apply (D _ Hin). set_solver. }
  apply links_frame.
  - intros z Hz. apply Hn; [set_solver|]. intros ->. apply elem_of_cons in Hz as [Hz|Hz]; [done|by apply Hnot].
  - intros z Hz. apply Hp. done.
Qed.
Lemma back_frame n p n' p' x l2 : NoDup (ids l2) ->
  (forall z, z ∈ locs l2 -> n' z = n z) -> (forall z, z ∈ H x :: locs l2 -> z <> behind x l2 -> p' z = p z) ->
  links n p (locs l2 ++ [H x]) -> links n' p' (locs l2 ++ [H x]).
Proof.
  intros ND Hn Hp. destruct l2 as [|e l]; [done|].
  rewrite behind_cons in *. unfold locs, ids in *. cbn [fmap list_fmap app] in *.
  apply NoDup_cons in ND as [ND1 ND2].
  apply links_frame.
  - done.
  - intros z Hz. apply Hp; [set_solver|]. intros ->. apply elem_of_app in Hz as [Hz|Hz]; [|set_solver].
    apply elem_of_list_fmap in Hz as (y & [= <-] & Hy). done.
Qed.
Lemma before_in x l1 : before x l1 ∈ H x :: locs l1.
Proof. destruct (before_split x l1) as (L1 & -> & _). set_solver. Qed.
Lemma behind_in x l2 : behind x l2 ∈ H x :: locs l2.
Proof. destruct (behind_split x l2) as (L2 & E & _). assert (behind x l2 ∈ locs l2 ++ [H x]) by (rewrite E; set_solver). set_solver. Qed.
Lemma ids_app l1 l2 : ids (l1 ++ l2) = ids l1 ++ ids l2. Proof. apply fmap_app. Qed.
Lemma in_ids k (a : A) (l : seq) : (k, a) ∈ l -> k ∈ ids l.
Proof. intros. apply elem_of_list_fmap. by exists (k, a). Qed.
End proofs.

Ltac rd S a c := let Hc := fresh "Hc" in let Hn := fresh "Hn" in let Hp := fresh "Hp" in let Hv := fresh "Hv" in
  destruct (read_ok _ a _ _ _ _ _ S) as (c & Hc & Hn & Hp & Hv); [eauto|rewrite Hc; cbn [obind]].
