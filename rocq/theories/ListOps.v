(** Every list operation preserves the representation. *)
From stdpp Require Import gmap list.
From Coq Require Import ZArith Lia.
From Verif Require Import Base ListModel ListSpec ListProofs.
Local Open Scope outcome_scope.

Section ops.
Context {A : Type} (lax : bool).
Notation heap := (heap A).
Notation seq := (list (nat * A)).
Notation links_t := (loc -> option (option loc)).
Implicit Types (s t : heap) (W : gmap nat seq).

Lemma fresh_node W k (n p : links_t) (v : loc -> option (option A)) g x l : rel W k n p v g -> W !! x = Some l -> N k ∉ locs l.
Proof. intros R Hx Hin. apply locs_in in Hin. pose proof (r_lt _ _ _ _ _ _ R x l k Hx Hin). lia. Qed.
Lemma before_ne_fresh W k (n p : links_t) (v : loc -> option (option A)) g x l1 l2 : rel W k n p v g -> W !! x = Some (l1 ++ l2) -> before x l1 <> N k.
Proof.
  intros R Hx E. pose proof (before_in x l1) as Hb. rewrite E in Hb. apply elem_of_cons in Hb as [Hb|Hb]; [done|].
  apply (fresh_node _ _ _ _ _ _ _ _ R Hx). rewrite locs_app. set_solver.
Qed.
Lemma behind_ne_fresh W k (n p : links_t) (v : loc -> option (option A)) g x l1 l2 : rel W k n p v g -> W !! x = Some (l1 ++ l2) -> behind x l2 <> N k.
Proof.
  intros R Hx E. pose proof (behind_in x l2) as Hb. rewrite E in Hb. apply elem_of_cons in Hb as [Hb|Hb]; [done|].
  apply (fresh_node _ _ _ _ _ _ _ _ R Hx). rewrite locs_app. set_solver.
Qed.
(** [before] is not in the back part, [behind] not in the front part. *)
Lemma before_not_back x (l1 l2 : seq) : NoDup (ids (l1 ++ l2)) -> before x l1 ∉ locs l2.
Proof.
  intros ND Hin. pose proof (before_in x l1) as Hb. rewrite ids_app in ND. apply NoDup_app in ND as (_ & D & _).
  destruct (before x l1) as [y|i]; [by apply locs_H in Hin|]. apply elem_of_cons in Hb as [Hb|Hb]; [done|].
  rewrite locs_in in Hb, Hin. by apply (D i).
Qed.
Lemma behind_not_front x (l1 l2 : seq) : NoDup (ids (l1 ++ l2)) -> behind x l2 ∉ locs l1.
Proof.
  intros ND Hin. pose proof (behind_in x l2) as Hb. rewrite ids_app in ND. apply NoDup_app in ND as (_ & D & _).
  destruct (behind x l2) as [y|i]; [by apply locs_H in Hin|]. apply elem_of_cons in Hb as [Hb|Hb]; [done|].
  rewrite locs_in in Hb, Hin. by apply (D i).
Qed.

Lemma splice W k (n p : links_t) v g x (l1 l2 : seq) (a : A) (n' p' : links_t) v' g' :
  rel W k n p v g -> W !! x = Some (l1 ++ l2) ->
  n' (N k) = Some (Some (behind x l2)) -> n' (before x l1) = Some (Some (N k)) ->
  p' (N k) = Some (Some (before x l1)) -> p' (behind x l2) = Some (Some (N k)) ->
  v' (N k) = Some (Some a) ->
  (forall z, z <> N k -> z <> before x l1 -> n' z = n z) ->
  (forall z, z <> N k -> z <> behind x l2 -> p' z = p z) ->
  (forall z, z <> N k -> v' z = v z) ->
  g' = <[x := (Z.of_nat (length (l1 ++ l2)) + 1)%Z]> g ->
  rel (<[x := l1 ++ (k, a) :: l2]> W) (S k) n' p' v' g'.
Proof.
  intros R Hx N1 N2 P1 P2 V1 Nf Pf Vf ->.
  pose proof (r_nodup _ _ _ _ _ _ R _ _ Hx) as ND. pose proof (r_rep _ _ _ _ _ _ R _ _ Hx) as L.
  pose proof (fresh_node _ _ _ _ _ _ _ _ R Hx) as Fr. pose proof (before_not_back x _ _ ND) as B1. pose proof (behind_not_front x _ _ ND) as B2.
  pose proof (before_in x l1) as I1. pose proof (behind_in x l2) as I2.
  assert (ND1 : NoDup (ids l1)) by (rewrite ids_app in ND; by apply NoDup_app in ND as (? & _)).
  assert (ND2 : NoDup (ids l2)) by (rewrite ids_app in ND; by apply NoDup_app in ND as (_ & _ & ?)).
  assert (Fr' : k ∉ ids (l1 ++ l2)) by (by rewrite <- locs_in).
  destruct L as [L1 L2 L3 L4]. rewrite locs_app in Fr.
  eapply (rel_change W k n p v g x (l1 ++ l2)); [exact R|exact Hx|lia| | | | | |].
  - split.
    + replace (l1 ++ (k, a) :: l2) with (l1 ++ [(k, a)] ++ l2) by done.
      apply chain_split in L1 as (C1 & C2 & C3).
      apply chain_split. split; [|split].
      * apply (front_frame n p); [done| | |done].
        -- intros z Hz Hz'. apply Nf; [intros ->|done]. apply elem_of_cons in Hz as [?|?]; [done|set_solver].
        -- intros z Hz. apply Pf; [intros ->; set_solver|intros ->; done].
      * by split.
      * change (locs ([(k, a)] ++ l2) ++ [H x]) with (N k :: (locs l2 ++ [H x])).
        destruct (behind_split x l2) as (L2' & E & _).
        assert (G : links n' p' (locs l2 ++ [H x])).
        { apply (back_frame n p); [done| | |done].
          - intros z Hz. apply Nf; [intros ->; set_solver|intros ->; done].
          - intros z Hz Hz'. apply Pf; [intros ->|done]. apply elem_of_cons in Hz as [?|?]; [done|set_solver]. }
        rewrite E in G |- *. apply links_cons. split; [by split|done].
    + rewrite Vf by done. done.
    + intros i d Hi. destruct (decide (i = k)) as [->|Hne].
      * assert (d = a) as ->; [|done]. apply elem_of_app in Hi as [Hi|Hi].
        { apply in_ids in Hi. exfalso. apply Fr'. rewrite ids_app. set_solver. }
        apply elem_of_cons in Hi as [[= <-]|Hi]; [done|]. apply in_ids in Hi. exfalso. apply Fr'. rewrite ids_app. set_solver.
      * rewrite Vf by congruence. apply L3. apply elem_of_app in Hi as [Hi|Hi]; [set_solver|].
        apply elem_of_cons in Hi as [[= -> ->]|Hi]; [done|set_solver].
    + rewrite lookup_insert. f_equal. rewrite !app_length. cbn [length]. lia.
  - rewrite ids_app in ND, Fr' |- *. cbn [ids fmap list_fmap fst]. fold (ids l2).
    apply NoDup_app in ND as (? & D & ?). apply NoDup_app. split; [done|]. split.
    + intros i Hi Hc. apply elem_of_cons in Hc as [->|Hc]; [set_solver|by apply (D i)].
    + apply NoDup_cons. split; [set_solver|done].
  - intros i. rewrite !ids_app. cbn [ids fmap list_fmap fst]. fold (ids l2). rewrite elem_of_app, elem_of_cons, elem_of_app.
    intros [?|[->|?]]; [auto|right; lia|auto].
  - intros z Hz Hl Hk. rewrite locs_app in Hl. assert (z <> N k) by (apply Hk; lia).
    rewrite Nf, Pf, Vf; [done|done|done| |done|].
    + intros ->. apply elem_of_cons in I2 as [?|?]; [done|set_solver].
    + intros ->. apply elem_of_cons in I1 as [?|?]; [done|set_solver].
  - intros i Hi Hn. exfalso. apply Hn. rewrite ids_app in Hi |- *. cbn [ids fmap list_fmap fst]. fold (ids l2).
    rewrite elem_of_app, elem_of_cons. rewrite elem_of_app in Hi. destruct Hi as [[?|?]|?]; [auto|auto|].
    right. left. lia.
  - intros y Hy. by rewrite lookup_insert_ne.
Qed.

Lemma cut W k (n p : links_t) (v : loc -> option (option A)) g x (l1 mid l2 : seq) (n' p' : links_t) v' g' :
  rel W k n p v g -> W !! x = Some (l1 ++ mid ++ l2) ->
  n' (before x l1) = Some (Some (behind x l2)) -> p' (behind x l2) = Some (Some (before x l1)) ->
  (forall z, z ∉ locs mid -> z <> before x l1 -> n' z = n z) ->
  (forall z, z ∉ locs mid -> z <> behind x l2 -> p' z = p z) ->
  (forall z, z ∉ locs mid -> v' z = v z) -> (forall z, z ∈ locs mid -> v' z = None) ->
  g' = <[x := Z.of_nat (length (l1 ++ l2))]> g ->
  rel (<[x := l1 ++ l2]> W) k n' p' v' g'.
Proof.
  intros R Hx N1 P1 Nf Pf Vf Vm ->.
  pose proof (r_nodup _ _ _ _ _ _ R _ _ Hx) as ND. pose proof (r_rep _ _ _ _ _ _ R _ _ Hx) as L.
  assert (ND' : NoDup (ids (l1 ++ l2))).
  { rewrite !ids_app in *. apply NoDup_app in ND as (? & D & ND2). apply NoDup_app in ND2 as (? & D2 & ?).
    apply NoDup_app. split; [done|]. split; [|done]. intros i Hi Hi'. apply (D i); set_solver. }
  assert (Dm : forall i, i ∈ ids mid -> i ∉ ids (l1 ++ l2)).
  { rewrite !ids_app in *. apply NoDup_app in ND as (? & D & ND2). apply NoDup_app in ND2 as (? & D2 & ?).
    intros i Hi Hc. apply elem_of_app in Hc as [Hc|Hc]; [apply (D i); [done|apply elem_of_app; auto]|apply (D2 i); done]. }
  assert (ND1 : NoDup (ids l1)) by (rewrite ids_app in ND'; by apply NoDup_app in ND' as (? & _)).
  assert (ND2 : NoDup (ids l2)) by (rewrite ids_app in ND'; by apply NoDup_app in ND' as (_ & _ & ?)).
  assert (Lm : forall z, z ∈ locs mid -> z ∉ locs l1 /\ z ∉ locs l2).
  { intros [y|i] Hz; [by apply locs_H in Hz|]. rewrite locs_in in Hz. specialize (Dm i Hz). rewrite ids_app in Dm.
    rewrite !locs_in. set_solver. }
  pose proof (before_not_back x _ _ ND') as B1. pose proof (behind_not_front x _ _ ND') as B2.
  pose proof (before_in x l1) as I1. pose proof (behind_in x l2) as I2.
  destruct L as [L1 L2 L3 L4].
  eapply (rel_change W k n p v g x (l1 ++ mid ++ l2)); [exact R|exact Hx|lia| |done| | | |].
  - split.
    + pose proof L1 as L1'. rewrite (app_assoc l1 mid l2) in L1'.
      apply chain_split in L1 as (C1 & _ & _). apply chain_split in L1' as (_ & _ & C3).
      apply chain_split. split; [|split].
      * apply (front_frame n p); [done| | |done].
        -- intros z Hz Hz'. apply Nf; [|done]. intros Hm. apply elem_of_cons in Hz as [->|Hz]; [by apply locs_H in Hm|]. by destruct (Lm z Hm).
        -- intros z Hz. apply Pf; [intros Hm; by destruct (Lm z Hm)|intros ->; done].
      * by split.
      * apply (back_frame n p); [done| | |done].
        -- intros z Hz. apply Nf; [intros Hm; by destruct (Lm z Hm)|intros ->; done].
        -- intros z Hz Hz'. apply Pf; [|done]. intros Hm. apply elem_of_cons in Hz as [->|Hz]; [by apply locs_H in Hm|]. by destruct (Lm z Hm).
    + rewrite Vf by apply locs_H. done.
    + intros i d Hi. rewrite Vf; [apply L3; set_solver|]. rewrite locs_in. intros Hm. apply (Dm i Hm). by apply in_ids in Hi.
    + by rewrite lookup_insert.
  - intros i Hi. left. rewrite !ids_app in *. set_solver.
  - intros z Hz Hl _. rewrite !locs_app in Hl.
    rewrite Nf, Pf, Vf; [done|set_solver|set_solver| |set_solver|].
    + intros ->. apply elem_of_cons in I2 as [?|?]; [done|set_solver].
    + intros ->. apply elem_of_cons in I1 as [?|?]; [done|set_solver].
  - intros i [Hi|Hi] Hn; [|lia]. apply Vm. rewrite locs_in. rewrite !ids_app in *. set_solver.
  - intros y Hy. by rewrite lookup_insert_ne.
Qed.

(** 242-245 *)
Lemma new_ok W k s x : repr W k s -> W !! x = None -> exists t, list_new x s = Ok t /\ repr (<[x := []]> W) k t.
Proof.
  intros (n & p & v & g & S & R) Hx. unfold list_new. rewrite (see_sizes _ _ _ _ _ _ S), (r_size _ _ _ _ _ _ R x Hx).
  match goal with |- context [link_next _ _ ?u] => set (s1 := u) end.
  assert (S1 : sees s1 (upd n (H x) (Some None)) (upd p (H x) (Some None)) (upd v (H x) (Some None)) (<[x := 0%Z]> g) k).
  { split; cbn [s1 sizes made]; try apply S; try reflexivity; intros z; unfold s1, nxl, pvl, vll, upd; cbn [cells];
    (destruct (decide (z = H x)) as [->|Hz]; [rewrite lookup_insert|rewrite lookup_insert_ne by done]); cbn;
    rewrite <- ?(see_nx _ _ _ _ _ _ S), <- ?(see_pv _ _ _ _ _ _ S), <- ?(see_vl _ _ _ _ _ _ S); done. }
  destruct (link_next_null _ (H x) (H x) _ _ _ _ _ S1) as (t & E & T); [apply upd_eq|rewrite upd_eq; eauto|rewrite upd_eq; eauto|].
  rewrite E. exists t. split; [done|]. eexists _, _, _, _. split; [exact T|].
  assert (Same : forall z, z <> H x -> upd (upd n (H x) (Some None)) (H x) (Some (Some (H x))) z = n z /\
    upd (upd p (H x) (Some None)) (H x) (Some (Some (H x))) z = p z /\ upd v (H x) (Some None) z = v z).
  { intros z Hz. rewrite !upd_ne by done. done. }
  revert Same. generalize (upd_eq (upd n (H x) (Some None)) (H x) (Some (Some (H x)))).
  generalize (upd_eq (upd p (H x) (Some None)) (H x) (Some (Some (H x)))). generalize (upd_eq v (H x) (Some None)).
  generalize (upd (upd n (H x) (Some None)) (H x) (Some (Some (H x)))) as n'.
  generalize (upd (upd p (H x) (Some None)) (H x) (Some (Some (H x)))) as p'. generalize (upd v (H x) (Some None)) as v'.
  intros v' p' n' Ev Ep En Same. split.
  - intros y m. destruct (decide (y = x)) as [->|Hne].
    + rewrite lookup_insert. intros [= <-]. split; [by repeat split|done|set_solver|by rewrite lookup_insert].
    + rewrite lookup_insert_ne by done. intros Hy. destruct (r_rep _ _ _ _ _ _ R y m Hy) as [R1 R2 R3 R4]. split.
      * apply (links_frame n p); [intros z Hz; apply Same|intros z Hz; apply Same|done]; intros ->.
        -- apply elem_of_cons in Hz as [[= <-]|Hz]; [done|by apply locs_H in Hz].
        -- apply elem_of_app in Hz as [Hz|Hz]; [by apply locs_H in Hz|]. apply elem_of_list_singleton in Hz as [= <-]. done.
      * destruct (Same (H y)) as (_ & _ & ->); [congruence|done].
      * intros i a Hi. destruct (Same (N i)) as (_ & _ & ->); [congruence|eauto].
      * by rewrite lookup_insert_ne.
  - intros y m. destruct (decide (y = x)) as [->|Hne]; [rewrite lookup_insert; intros [= <-]; constructor|].
    rewrite lookup_insert_ne by done. apply (r_nodup _ _ _ _ _ _ R).
  - intros y m i. destruct (decide (y = x)) as [->|Hne]; [rewrite lookup_insert; intros [= <-]; set_solver|].
    rewrite lookup_insert_ne by done. apply (r_lt _ _ _ _ _ _ R).
  - intros y1 y2 m1 m2 i. destruct (decide (y1 = x)) as [->|H1]; [rewrite lookup_insert; intros [= <-]; set_solver|].
    destruct (decide (y2 = x)) as [->|H2]; [rewrite lookup_insert; intros ? [= <-]; set_solver|].
    rewrite !lookup_insert_ne by done. apply (r_disj _ _ _ _ _ _ R).
  - intros i Hi. destruct (Same (N i)) as (_ & _ & E'); [congruence|]. rewrite E' in Hi.
    destruct (r_node _ _ _ _ _ _ R i Hi) as (y & m & Hy & Hm). exists y, m. split; [|done].
    rewrite lookup_insert_ne; [done|]. intros ->. congruence.
  - intros y Hy. destruct (decide (y = x)) as [->|Hne]; [by rewrite lookup_insert in Hy|].
    rewrite lookup_insert_ne in Hy by done. destruct (Same (H y)) as (_ & _ & ->); [congruence|by apply (r_head _ _ _ _ _ _ R)].
  - intros y Hy. destruct (decide (y = x)) as [->|Hne]; [by rewrite lookup_insert in Hy|].
    rewrite lookup_insert_ne in Hy by done. rewrite lookup_insert_ne by done. by apply (r_size _ _ _ _ _ _ R).
Qed.

Lemma upd_some {B} (f : loc -> option B) a b z : is_Some (f z) -> is_Some (upd f a (Some b) z).
Proof. unfold upd. destruct (decide (z = a)); eauto. Qed.
Lemma around W k (n p : links_t) (v : loc -> option (option A)) g x l1 l2 : rel W k n p v g -> W !! x = Some (l1 ++ l2) ->
  n (before x l1) = Some (Some (behind x l2)) /\ p (behind x l2) = Some (Some (before x l1)) /\
  is_Some (v (before x l1)) /\ is_Some (v (behind x l2)) /\ g !! x = Some (Z.of_nat (length (l1 ++ l2))).
Proof.
  intros R Hx. pose proof (r_rep _ _ _ _ _ _ R _ _ Hx) as L. pose proof (lr_links _ _ _ _ _ _ L) as C.
  apply chain_split in C as (_ & [C1 C2] & _). split; [done|]. split; [done|].
  pose proof (before_in x l1) as I1. pose proof (behind_in x l2) as I2.
  split; [|split]; [| |apply L]; apply (links_in _ _ _ _ _ _ _ L); rewrite locs_app.
  - apply elem_of_cons in I1 as [->|I1]; [apply elem_of_cons; auto|]. apply elem_of_cons. right. apply elem_of_app. auto.
  - apply elem_of_cons in I2 as [->|I2]; [apply elem_of_cons; auto|]. apply elem_of_cons. right. apply elem_of_app. auto.
Qed.

Ltac upds := repeat first [rewrite upd_eq | rewrite upd_ne by (congruence || assumption)].

(** insert before [behind x l2], through link_prv of that node *)
Lemma link_prv_splice W k s x l1 l2 (a : A) : repr W k s -> W !! x = Some (l1 ++ l2) ->
  exists s1 t, create_node a s = (N k, s1) /\ link_prv (behind x l2) (N k) s1 = Ok t /\
  size x t = Ok (Z.of_nat (length (l1 ++ l2))) /\
  exists u, set_size x (Z.of_nat (length (l1 ++ l2)) + 1) t = Ok u /\ repr (<[x := l1 ++ (k, a) :: l2]> W) (S k) u.
Proof.
  intros (n & p & v & g & Sn & R) Hx. destruct (around _ _ _ _ _ _ _ _ _ R Hx) as (A1 & A2 & A3 & A4 & A5).
  pose proof (before_ne_fresh _ _ _ _ _ _ _ _ _ R Hx) as F1. pose proof (behind_ne_fresh _ _ _ _ _ _ _ _ _ R Hx) as F2.
  destruct (create_ok s a _ _ _ _ _ Sn) as (s1 & E1 & S1).
  destruct (link_prv_some s1 (behind x l2) (N k) (before x l1) _ _ _ _ _ S1) as (t & E2 & S2);
    [by rewrite upd_ne|by apply upd_some|rewrite upd_eq; eauto|by apply upd_some|].
  exists s1, t. split; [done|]. split; [done|]. split; [exact (size_ok _ _ _ _ _ _ _ _ S2 A5)|].
  destruct (set_size_ok t x (Z.of_nat (length (l1 ++ l2)) + 1) _ _ _ _ _ _ S2 A5) as (u & E3 & S3).
  exists u. split; [done|]. eexists _, _, _, _. split; [exact S3|].
  apply (splice W k n p v g x l1 l2 a); try done; upds; try done; intros z; intros; by upds.
Qed.
Lemma link_next_splice W k s x l2 (a : A) : repr W k s -> W !! x = Some l2 ->
  exists s1 t, create_node a s = (N k, s1) /\ link_next (H x) (N k) s1 = Ok t /\
  size x t = Ok (Z.of_nat (length l2)) /\
  exists u, set_size x (Z.of_nat (length l2) + 1) t = Ok u /\ repr (<[x := (k, a) :: l2]> W) (S k) u.
Proof.
  intros (n & p & v & g & Sn & R) Hx. destruct (around _ _ _ _ _ _ _ [] l2 R Hx) as (A1 & A2 & A3 & A4 & A5).
  pose proof (behind_ne_fresh _ _ _ _ _ _ _ [] _ R Hx) as F2. rewrite before_nil in *.
  destruct (create_ok s a _ _ _ _ _ Sn) as (s1 & E1 & S1).
  destruct (link_next_some s1 (H x) (N k) (behind x l2) _ _ _ _ _ S1) as (t & E2 & S2);
    [by rewrite upd_ne|by apply upd_some|rewrite upd_eq; eauto|by apply upd_some|].
  exists s1, t. split; [done|]. split; [done|]. split; [exact (size_ok _ _ _ _ _ _ _ _ S2 A5)|].
  destruct (set_size_ok t x (Z.of_nat (length l2) + 1) _ _ _ _ _ _ S2 A5) as (u & E3 & S3).
  exists u. split; [done|]. eexists _, _, _, _. split; [exact S3|].
  apply (splice W k n p v g x [] l2 a); try done; rewrite ?before_nil; upds; try done; intros z; intros; by upds.
Qed.

Lemma insert_ok W k s x l1 l2 (a : A) : repr W k s -> W !! x = Some (l1 ++ l2) ->
  exists t, insert x (behind x l2) a s = Ok (N k, t) /\ repr (<[x := l1 ++ (k, a) :: l2]> W) (S k) t.
Proof.
  intros R Hx. destruct (link_prv_splice _ _ _ _ _ _ a R Hx) as (s1 & t & E1 & E2 & E3 & u & E4 & Ru).
  exists u. unfold insert. rewrite E1. cbn [obind]. rewrite E2. cbn [obind]. rewrite E3. cbn [obind]. rewrite E4. done.
Qed.
Lemma emplace_back_ok W k s x l (a : A) : repr W k s -> W !! x = Some l ->
  exists t, emplace_back x a s = Ok t /\ repr (<[x := l ++ [(k, a)]]> W) (S k) t.
Proof.
  intros R Hx. assert (Hx' : W !! x = Some (l ++ [])) by (by rewrite app_nil_r).
  destruct (link_prv_splice _ _ _ _ _ _ a R Hx') as (s1 & t & E1 & E2 & E3 & u & E4 & Ru).
  exists u. unfold emplace_back. rewrite E1. cbn [obind]. change (behind x []) with (H x) in E2. rewrite E2. cbn [obind]. rewrite E3. cbn [obind]. rewrite E4. done.
Qed.
Lemma emplace_front_ok W k s x l (a : A) : repr W k s -> W !! x = Some l ->
  exists t, emplace_front x a s = Ok t /\ repr (<[x := (k, a) :: l]> W) (S k) t.
Proof.
  intros R Hx. destruct (link_next_splice _ _ _ _ _ a R Hx) as (s1 & t & E1 & E2 & E3 & u & E4 & Ru).
  exists u. unfold emplace_front. rewrite E1. cbn [obind]. rewrite E2. cbn [obind]. rewrite E3. cbn [obind]. rewrite E4. done.
Qed.

(** erase of one node: order of the size update and the delete does not matter *)
Lemma drop_node W k s x l1 e l2 : repr W k s -> W !! x = Some (l1 ++ e :: l2) ->
  next lax (N (fst e)) s = Ok (behind x l2) /\ prev lax (N (fst e)) s = Ok (before x l1) /\
  exists t, unlink (N (fst e)) s = Ok t /\
  (exists u w, size x t = Ok (Z.of_nat (length (l1 ++ e :: l2))) /\
     set_size x (Z.of_nat (length (l1 ++ e :: l2)) - 1) t = Ok u /\ destory_node (N (fst e)) u = Ok w /\
     repr (<[x := l1 ++ l2]> W) k w) /\
  (exists u w, destory_node (N (fst e)) t = Ok u /\ size x u = Ok (Z.of_nat (length (l1 ++ e :: l2))) /\
     set_size x (Z.of_nat (length (l1 ++ e :: l2)) - 1) u = Ok w /\ repr (<[x := l1 ++ l2]> W) k w).
Proof.
  intros (n & p & v & g & Sn & R) Hx. pose proof (r_nodup _ _ _ _ _ _ R _ _ Hx) as ND.
  assert (Hx' : W !! x = Some ((l1 ++ [e]) ++ l2)) by (by rewrite <- app_assoc).
  destruct (around _ _ _ _ _ _ _ _ _ R Hx) as (A1 & A2 & A3 & A4 & A5).
  destruct (around _ _ _ _ _ _ _ _ _ R Hx') as (B1 & B2 & B3 & B4 & B5). rewrite before_snoc in *. rewrite behind_cons in *.
  assert (Hq : behind x l2 <> N (fst e)).
  { pose proof (before_not_back x (l1 ++ [e]) l2) as Q. rewrite before_snoc, <- app_assoc in Q. specialize (Q ND).
    pose proof (behind_in x l2) as I. intros E. rewrite E in I. apply elem_of_cons in I as [?|?]; done. }
  assert (Hp : before x l1 <> N (fst e)).
  { pose proof (behind_not_front x l1 (e :: l2) ND) as Q. rewrite behind_cons in Q.
    pose proof (before_in x l1) as I. intros E. rewrite E in I. apply elem_of_cons in I as [?|?]; done. }
  split; [exact (next_ok _ _ _ _ _ _ _ _ _ Sn B1)|]. split; [exact (prev_ok _ _ _ _ _ _ _ _ _ Sn A2)|].
  destruct (unlink_ok s (N (fst e)) (before x l1) (behind x l2) _ _ _ _ _ Sn) as (t & E1 & S1); try done.
  exists t. split; [done|].
  assert (Len : (Z.of_nat (length (l1 ++ e :: l2)) - 1)%Z = Z.of_nat (length (l1 ++ l2))) by (rewrite !app_length; cbn [length]; lia).
  rewrite Len.
  assert (Fin : forall w g', g' = <[x := Z.of_nat (length (l1 ++ l2))]> g ->
    sees w (upd (upd (upd n (before x l1) (Some (Some (behind x l2)))) (N (fst e)) (Some None)) (N (fst e)) None)
           (upd (upd (upd p (behind x l2) (Some (Some (before x l1)))) (N (fst e)) (Some None)) (N (fst e)) None)
           (upd v (N (fst e)) None) g' k -> repr (<[x := l1 ++ l2]> W) k w).
  { intros w g' Hg Sw. eexists _, _, _, _. split; [exact Sw|].
    apply (cut W k n p v g x l1 [e] l2); try done; upds; try done; cbn.
    - intros z Hz ?. assert (z <> N (fst e)) by (intros ->; apply Hz; apply elem_of_list_here). by upds.
    - intros z Hz ?. assert (z <> N (fst e)) by (intros ->; apply Hz; apply elem_of_list_here). by upds.
    - intros z Hz. assert (z <> N (fst e)) by (intros ->; apply Hz; apply elem_of_list_here). by upds.
    - intros z Hz. apply elem_of_list_singleton in Hz as ->. by upds. }
  split.
  - destruct (set_size_ok t x (Z.of_nat (length (l1 ++ l2))) _ _ _ _ _ _ S1 A5) as (u & E2 & S2).
    destruct (destory_ok u (fst e) _ _ _ _ _ S2) as (w & E3 & S3); [done|].
    exists u, w. split; [exact (size_ok _ _ _ _ _ _ _ _ S1 A5)|]. split; [done|]. split; [done|]. by eapply Fin.
  - destruct (destory_ok t (fst e) _ _ _ _ _ S1) as (u & E2 & S2); [done|].
    destruct (set_size_ok u x (Z.of_nat (length (l1 ++ l2))) _ _ _ _ _ _ S2 A5) as (w & E3 & S3).
    exists u, w. split; [done|]. split; [exact (size_ok _ _ _ _ _ _ _ _ S2 A5)|]. split; [done|]. by eapply Fin.
Qed.
Lemma erase_ok W k s x l1 e l2 : repr W k s -> W !! x = Some (l1 ++ e :: l2) ->
  exists t, erase lax x (N (fst e)) s = Ok (behind x l2, t) /\ repr (<[x := l1 ++ l2]> W) k t.
Proof.
  intros R Hx. destruct (drop_node _ _ _ _ _ _ _ R Hx) as (E1 & _ & t & E2 & (u & w & E3 & E4 & E5 & Rw) & _).
  exists w. unfold erase. rewrite E1. cbn [obind]. rewrite E2. cbn [obind]. rewrite E3. cbn [obind]. rewrite E4. cbn [obind].
  rewrite E5. done.
Qed.
Lemma repr_size W k s x l : repr W k s -> W !! x = Some l -> size x s = Ok (Z.of_nat (length l)).
Proof.
  intros (n & p & v & g & Sn & R) Hx. apply (size_ok _ _ _ _ _ _ _ _ Sn). apply (r_rep _ _ _ _ _ _ R _ _ Hx).
Qed.
Lemma repr_empty W k s x l : repr W k s -> W !! x = Some l -> empty x s = Ok (match l with [] => true | _ => false end).
Proof. intros R Hx. unfold empty. rewrite (repr_size _ _ _ _ _ R Hx). cbn [obind]. destruct l; done. Qed.
Lemma pop_back_ok W k s x l : repr W k s -> W !! x = Some l ->
  exists t, pop_back lax x s = Ok t /\ repr (<[x := take (length l - 1) l]> W) k t.
Proof.
  intros R Hx. unfold pop_back. rewrite (repr_empty _ _ _ _ _ R Hx). cbn [obind].
  destruct l as [|e l _] using rev_ind.
  { exists s. split; [done|]. by rewrite insert_id. }
  replace (match l ++ [e] with [] => true | _ => false end) with false by (by destruct l).
  rewrite app_length. cbn [length]. replace (length l + 1 - 1) with (length l) by lia. rewrite take_app.
  assert (P : prev lax (H x) s = Ok (N (fst e))).
  { destruct R as (n & p & v & g & Sn & R). assert (Hx' : W !! x = Some ((l ++ [e]) ++ [])) by (by rewrite app_nil_r).
    destruct (around _ _ _ _ _ _ _ _ _ R Hx') as (_ & A2 & _). rewrite before_snoc in A2. exact (prev_ok _ _ _ _ _ _ _ _ _ Sn A2). }
  destruct (drop_node _ _ _ _ _ _ [] R Hx) as (_ & _ & t & E2 & _ & (u & w & E3 & E4 & E5 & Rw)).
  exists w. rewrite P. cbn [obind]. rewrite E2. cbn [obind]. rewrite E3. cbn [obind]. rewrite E4. cbn [obind].
  split; [exact E5|]. by rewrite app_nil_r in Rw.
Qed.
Lemma pop_front_ok W k s x l : repr W k s -> W !! x = Some l ->
  exists t, pop_front lax x s = Ok t /\ repr (<[x := drop 1 l]> W) k t.
Proof.
  intros R Hx. unfold pop_front. rewrite (repr_empty _ _ _ _ _ R Hx). cbn [obind].
  destruct l as [|e l].
  { exists s. split; [done|]. by rewrite insert_id. }
  assert (P : next lax (H x) s = Ok (N (fst e))).
  { destruct R as (n & p & v & g & Sn & R).
    destruct (around _ _ _ _ _ _ _ [] _ R Hx) as (A1 & _). exact (next_ok _ _ _ _ _ _ _ _ _ Sn A1). }
  destruct (drop_node _ _ _ _ [] _ _ R Hx) as (_ & _ & t & E2 & _ & (u & w & E3 & E4 & E5 & Rw)).
  exists w. rewrite P. cbn [obind]. rewrite E2. cbn [obind]. rewrite E3. cbn [obind]. rewrite E4. cbn [obind].
  split; [exact E5|]. done.
Qed.
End ops.
