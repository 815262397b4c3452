(** The memory model and its log agree; frames. *)
From stdpp Require Import gmap list.
From Coq Require Import ZArith Lia ZifyBool ZifyNat.
From Verif Require Import Base ObjModel ObjSpec.
Local Open Scope Z_scope.
Local Open Scope outcome_scope.

Lemma obind_ok {X Y} (e : outcome X) (f : X -> outcome Y) y :
  obind e f = Ok y -> exists x, e = Ok x /\ f x = Ok y.
Proof. destruct e; cbn; [eauto|discriminate|discriminate]. Qed.
Lemma of_option_ok {X} (o : option X) x : of_option o = Ok x -> o = Some x.
Proof. destruct o; cbn; congruence. Qed.

Ltac inv_ok :=
  repeat match goal with
  | H : Ok _ = Ok _ |- _ => inversion H; subst; clear H
  | H : UB = Ok _ |- _ => discriminate H
  | H : Fuel = Ok _ |- _ => discriminate H
  | H : obind _ _ = Ok _ |- _ =>
      let x := fresh "r" in let E := fresh "E" in
      apply obind_ok in H as (x & E & H); cbn beta in H
  | H : (let '(_, _) := ?p in _) = Ok _ |- _ => destruct p; cbn beta iota in H
  | H : (if ?c then _ else _) = Ok _ |- _ => let C := fresh "C" in destruct c eqn:C
  | H : match ?c with Raw => _ | Live _ => _ end = Ok _ |- _ => let C := fresh "C" in destruct c eqn:C
  end.

Lemma ptr_eqb_eq p q : ptr_eqb p q = true <-> p = q.
Proof.
  destruct p as [|b i], q as [|c j]; cbn; split; try congruence; try discriminate.
  - rewrite andb_true_iff, Nat.eqb_eq, Z.eqb_eq. intros [-> ->]; reflexivity.
  - intros [= -> ->]. rewrite Nat.eqb_refl, Z.eqb_refl. reflexivity.
Qed.

Section proofs.
Context {A : Type}.
Notation mem := (mem A).
Notation cell := (cell A).

Lemma slot_ok m p b i (cs : list cell) c : slot m p = Ok (b, i, cs, c) ->
  p = Ptr b i /\ blocks m !! b = Some cs /\ 0 <= i /\ cs !! Z.to_nat i = Some c.
Proof.
  destruct p as [|b' i']; cbn [slot]; [discriminate|]. intros H. inv_ok.
  apply of_option_ok in E, E0. split; [reflexivity|]. split; [exact E|]. split; [lia|exact E0].
Qed.

(** ** Primitive steps *)
Inductive prim : mem -> mem -> Prop :=
| prim_alloc esz n m p m' : alloc_buf esz n m = Ok (p, m') -> prim m m'
| prim_free p m m' : free_buf p m = Ok m' -> prim m m'
| prim_ctor p v m m' : ctor p v m = Ok m' -> prim m m'
| prim_dtor p m m' : dtor p m = Ok m' -> prim m m'
| prim_assign p v m m' : assign p v m = Ok m' -> prim m m'
| prim_take p v m m' : take_from p m = Ok (v, m') -> prim m m'.
Inductive reach : mem -> mem -> Prop :=
| reach_refl m : reach m m
| reach_step m m1 m2 : prim m m1 -> reach m1 m2 -> reach m m2.
Lemma reach_trans m1 m2 m3 : reach m1 m2 -> reach m2 m3 -> reach m1 m3.
Proof. induction 1; [auto|]. intros. econstructor; eauto. Qed.
Lemma reach1 m m' : prim m m' -> reach m m'.
Proof. intros. econstructor; [eassumption|constructor]. Qed.

(** The log says of every slot what the memory holds. *)
Definition live_at (cs : list cell) (i : Z) : bool :=
  (0 <=? i) && match cs !! Z.to_nat i with Some (Live _) => true | _ => false end.
Definition coh (m : mem) : Prop :=
  legal_trace (trace m) /\
  (forall b cs, blocks m !! b = Some cs -> (b < nextb m)%nat /\ held (trace m) b) /\
  (forall b cs i, blocks m !! b = Some cs ->
     count (is_ctor b i) (trace m) = (count (is_dtor b i) (trace m) + (if live_at cs i then 1 else 0))%nat) /\
  (forall b i, blocks m !! b = None -> dead (trace m) b i) /\
  (forall b, (nextb m <= b)%nat -> count (is_alloc b) (trace m) = 0%nat /\ count (is_free b) (trace m) = 0%nat /\
     forall i, count (is_ctor b i) (trace m) = 0%nat /\ count (is_dtor b i) (trace m) = 0%nat) /\
  (forall b, (b < nextb m)%nat -> blocks m !! b = None -> count (is_alloc b) (trace m) = 1%nat /\ count (is_free b) (trace m) = 1%nat) /\
  (forall b n, In (EAlloc b n) (trace m) -> forall cs, blocks m !! b = Some cs -> length cs = Z.to_nat n).

Lemma count_cons f e t : count f (e :: t) = ((if f e then 1 else 0) + count f t)%nat.
Proof. unfold count. cbn [List.filter]. destruct (f e); reflexivity. Qed.

Lemma coh0 : coh mem0.
Proof.
  split; [exact I|]. split; [intros b cs H; cbn in H; rewrite lookup_empty in H; discriminate|].
  split; [intros b cs i H; cbn in H; rewrite lookup_empty in H; discriminate|].
  split; [intros; reflexivity|]. split; [intros; cbn; repeat split; intros; reflexivity|].
  split; [cbn; lia|]. intros b n []. 
Qed.

Ltac evs := repeat rewrite count_cons; cbn [is_ctor is_dtor is_alloc is_free].

Lemma live_at_insert (cs : list cell) i j c : 0 <= i -> (Z.to_nat i < length cs)%nat ->
  live_at (<[Z.to_nat i := c]> cs) j = if j =? i then negb (is_raw c) else live_at cs j.
Proof.
  intros Hi Hl. unfold live_at. destruct (Z.eqb_spec j i) as [->|Hne].
  - rewrite list_lookup_insert by exact Hl. replace (0 <=? i) with true by lia. destruct c; reflexivity.
  - destruct (Z.leb_spec 0 j); [|reflexivity]. rewrite list_lookup_insert_ne by lia. reflexivity.
Qed.

(** A step that changes one slot of a held buffer. *)
Lemma coh_upd (m : mem) b i (cs : list cell) (c c' : cell) e :
  coh m -> blocks m !! b = Some cs -> 0 <= i -> cs !! Z.to_nat i = Some c ->
  legal (trace m) e ->
  (forall f, is_alloc f e = false) -> (forall f, is_free f e = false) -> (forall f n, e <> EAlloc f n) ->
  (forall d j, (if is_ctor d j e then 1 else 0) + (if Nat.eqb d b && Z.eqb j i then (if is_raw c then 0 else 1) else 0) =
     (if is_dtor d j e then 1 else 0) + (if Nat.eqb d b && Z.eqb j i then (if is_raw c' then 0 else 1) else 0))%nat ->
  (forall d j, is_ctor d j e = true -> d = b) -> (forall d j, is_dtor d j e = true -> d = b) ->
  coh (upd m b (<[Z.to_nat i := c']> cs) e).
Proof.
  intros (L & H1 & H2 & H3 & H4 & H5 & H6) Hb Hi Hc Hl Ha Hf He Hcnt Hcb Hdb.
  assert (Hlen : (Z.to_nat i < length cs)%nat) by (apply lookup_lt_Some in Hc; exact Hc).
  unfold coh, upd; cbn [blocks nextb trace].
  split; [split; [exact Hl|exact L]|].
  split; [|split; [|split; [|split; [|split]]]].
  - intros d cs' Hd. assert (Hd' : exists cs0, blocks m !! d = Some cs0).
    { destruct (decide (d = b)) as [->|Hne]; [eauto|]. rewrite lookup_insert_ne in Hd by congruence. eauto. }
    destruct Hd' as (cs0 & Hd'). destruct (H1 _ _ Hd') as [X [Y Z]]. split; [exact X|].
    unfold held. rewrite !count_cons, Ha, Hf. cbn. auto.
  - intros d cs' j Hd. rewrite !count_cons. specialize (Hcnt d j).
    destruct (decide (d = b)) as [->|Hne].
    + rewrite lookup_insert in Hd. injection Hd as <-. rewrite live_at_insert by assumption.
      specialize (H2 _ _ j Hb). rewrite Nat.eqb_refl in Hcnt. cbn [andb] in Hcnt.
      destruct (Z.eqb_spec j i) as [->|Hji].
      * unfold live_at in H2. replace (0 <=? i) with true in H2 by lia. rewrite Hc in H2. cbn [andb] in H2.
        destruct c, c'; cbn in *; lia.
      * destruct (is_ctor b j e), (is_dtor b j e); lia.
    + rewrite lookup_insert_ne in Hd by congruence. specialize (H2 _ _ j Hd).
      replace (Nat.eqb d b) with false in Hcnt by (symmetry; apply Nat.eqb_neq; exact Hne). cbn [andb] in Hcnt.
      destruct (is_ctor d j e), (is_dtor d j e); lia.
  - intros d j Hd. assert (d <> b) by (intros ->; rewrite lookup_insert in Hd; discriminate).
    rewrite lookup_insert_ne in Hd by congruence. specialize (H3 _ j Hd). unfold dead in *. rewrite !count_cons.
    destruct (is_ctor d j e) eqn:X; [apply Hcb in X; contradiction|].
    destruct (is_dtor d j e) eqn:Y; [apply Hdb in Y; contradiction|]. exact H3.
  - intros d Hd. destruct (H4 d Hd) as (X & Y & Z). rewrite !count_cons, Ha, Hf. split; [exact X|]. split; [exact Y|].
    intros j. destruct (Z j) as [Z1 Z2]. rewrite !count_cons.
    assert (d <> b). { intros ->. destruct (H1 _ _ Hb). lia. }
    destruct (is_ctor d j e) eqn:U; [apply Hcb in U; contradiction|].
    destruct (is_dtor d j e) eqn:W; [apply Hdb in W; contradiction|]. auto.
  - intros d Hd Hn. assert (d <> b) by (intros ->; rewrite lookup_insert in Hn; discriminate).
    rewrite lookup_insert_ne in Hn by congruence. rewrite !count_cons, Ha, Hf. apply H5; assumption.
  - intros d n [X|X] cs' Hd; [exfalso; exact (He _ _ X)|].
    destruct (decide (d = b)) as [->|Hne].
    + rewrite lookup_insert in Hd. injection Hd as <-. rewrite insert_length. exact (H6 _ _ X _ Hb).
    + rewrite lookup_insert_ne in Hd by congruence. exact (H6 _ _ X _ Hd).
Qed.

Lemma coh_alive m b i (cs : list cell) c : coh m -> blocks m !! b = Some cs -> 0 <= i -> cs !! Z.to_nat i = Some c ->
  held (trace m) b /\ (if is_raw c then dead (trace m) b i else alive (trace m) b i).
Proof.
  intros (_ & H1 & H2 & _) Hb Hi Hc. destruct (H1 _ _ Hb) as [_ Hh]. split; [exact Hh|].
  specialize (H2 _ _ i Hb). unfold live_at in H2. replace (0 <=? i) with true in H2 by lia. rewrite Hc in H2.
  cbn [andb] in H2. unfold dead, alive. destruct c; cbn [is_raw]; lia.
Qed.

Lemma coh_prim m m' : coh m -> prim m m' -> coh m'.
Proof.
  intros Hc Hp. destruct Hp as [esz n m p m' H|p m m' H|p v m m' H|p m m' H|p v m m' H|p v m m' H].
  - unfold alloc_buf in H. inv_ok. destruct Hc as (L & H1 & H2 & H3 & H4 & H5 & H6).
    destruct (H4 (nextb m) (le_n _)) as (N1 & N2 & N3).
    assert (Hnone : blocks m !! nextb m = None).
    { destruct (blocks m !! nextb m) eqn:E; [|reflexivity]. destruct (H1 _ _ E). lia. }
    unfold coh; cbn [blocks nextb trace].
    split; [split; [exact N1|exact L]|]. split; [|split; [|split; [|split; [|split]]]].
    + intros d cs Hd. unfold held. evs. destruct (decide (d = nextb m)) as [->|Hne].
      * split; [lia|]. rewrite Nat.eqb_refl. lia.
      * rewrite lookup_insert_ne in Hd by congruence. destruct (H1 _ _ Hd) as [X [Y Z]]. split; [lia|].
        replace (Nat.eqb (nextb m) d) with false by (symmetry; apply Nat.eqb_neq; congruence). split; [lia|exact Z].
    + intros d cs i Hd. evs. destruct (decide (d = nextb m)) as [->|Hne].
      * rewrite lookup_insert in Hd. injection Hd as <-. destruct (N3 i) as [-> ->]. unfold live_at.
        destruct (0 <=? i); [|reflexivity]. cbn [andb].
        destruct (replicate (Z.to_nat n) Raw !! Z.to_nat i) as [c|] eqn:E; [|reflexivity].
        apply lookup_replicate in E as [-> _]. reflexivity.
      * rewrite lookup_insert_ne in Hd by congruence. exact (H2 _ _ i Hd).
    + intros d i Hd. unfold dead. evs. destruct (decide (d = nextb m)) as [->|Hne].
      * rewrite lookup_insert in Hd. discriminate.
      * rewrite lookup_insert_ne in Hd by congruence. exact (H3 _ i Hd).
    + intros d Hd. destruct (H4 d) as (X & Y & Z); [lia|]. evs.
      replace (Nat.eqb (nextb m) d) with false by (symmetry; apply Nat.eqb_neq; lia). split; [exact X|]. split; [exact Y|].
      intros i. evs. exact (Z i).
    + intros d Hd Hn. evs. destruct (decide (d = nextb m)) as [->|Hne].
      * rewrite lookup_insert in Hn. discriminate.
      * rewrite lookup_insert_ne in Hn by congruence.
        replace (Nat.eqb (nextb m) d) with false by (symmetry; apply Nat.eqb_neq; congruence).
        apply H5; [lia|exact Hn].
    + intros d k [X|X] cs Hd.
      * injection X as <- <-. rewrite lookup_insert in Hd. injection Hd as <-. apply replicate_length.
      * destruct (decide (d = nextb m)) as [->|Hne].
        { exfalso. clear -X N1. unfold count in N1. apply length_zero_iff_nil in N1.
          assert (In (EAlloc (nextb m) k) (List.filter (is_alloc (nextb m)) (trace m))).
          { apply filter_In. split; [exact X|]. cbn. apply Nat.eqb_refl. }
          rewrite N1 in H. destruct H. }
        rewrite lookup_insert_ne in Hd by congruence. exact (H6 _ _ X _ Hd).
  - unfold free_buf in H. destruct p as [|b i]; [inv_ok; exact Hc|]. inv_ok.
    apply of_option_ok in E. apply andb_true_iff in C as [_ C].
    destruct Hc as (L & H1 & H2 & H3 & H4 & H5 & H6). destruct (H1 _ _ E) as [Hlt Hh].
    assert (Hdead : forall j, dead (trace m) b j).
    { intros j. unfold dead. rewrite (H2 _ _ j E). unfold live_at. destruct (0 <=? j); cbn [andb]; [|lia].
      destruct (r !! Z.to_nat j) as [c|] eqn:X; [|lia]. rewrite forallb_forall in C.
      apply elem_of_list_lookup_2, elem_of_list_In, C in X. destruct c; cbn in *; [lia|discriminate]. }
    unfold coh; cbn [blocks nextb trace].
    split; [split; [split; [exact Hh|exact Hdead]|exact L]|]. split; [|split; [|split; [|split; [|split]]]].
    + intros d cs Hd. destruct (decide (d = b)) as [->|Hne]; [rewrite lookup_delete in Hd; discriminate|].
      rewrite lookup_delete_ne in Hd by congruence. destruct (H1 _ _ Hd) as [X [Y Z]]. split; [exact X|].
      unfold held. evs. replace (Nat.eqb b d) with false by (symmetry; apply Nat.eqb_neq; congruence). auto.
    + intros d cs j Hd. destruct (decide (d = b)) as [->|Hne]; [rewrite lookup_delete in Hd; discriminate|].
      rewrite lookup_delete_ne in Hd by congruence. evs. exact (H2 _ _ j Hd).
    + intros d j Hd. unfold dead. evs. destruct (decide (d = b)) as [->|Hne]; [exact (Hdead j)|].
      rewrite lookup_delete_ne in Hd by congruence. exact (H3 _ j Hd).
    + intros d Hd. destruct (H4 d Hd) as (X & Y & Z). evs.
      replace (Nat.eqb b d) with false by (symmetry; apply Nat.eqb_neq; lia). split; [exact X|]. split; [exact Y|].
      intros j. evs. exact (Z j).
    + intros d Hd Hn. evs. destruct (decide (d = b)) as [->|Hne].
      * rewrite Nat.eqb_refl. destruct Hh. lia.
      * rewrite lookup_delete_ne in Hn by congruence.
        replace (Nat.eqb b d) with false by (symmetry; apply Nat.eqb_neq; congruence). apply H5; assumption.
    + intros d k [X|X] cs Hd; [discriminate|].
      destruct (decide (d = b)) as [->|Hne]; [rewrite lookup_delete in Hd; discriminate|].
      rewrite lookup_delete_ne in Hd by congruence. exact (H6 _ _ X _ Hd).
  - unfold ctor in H. inv_ok. apply slot_ok in E as (-> & Hb & Hi & Hs).
    destruct (coh_alive _ _ _ _ _ Hc Hb Hi Hs) as [U V]; cbn [is_raw] in V.
    apply (coh_upd _ _ _ _ _ _ _ Hc Hb Hi Hs); [split; assumption|reflexivity|reflexivity|discriminate| | |].
    + intros d j. cbn. rewrite (Nat.eqb_sym n d), (Z.eqb_sym z j). destruct (Nat.eqb d n && (j =? z)); lia.
    + cbn; intros d j X. apply andb_true_iff in X as [X _]. apply Nat.eqb_eq in X. congruence.
    + cbn; intros; discriminate.
  - unfold dtor in H. inv_ok. apply slot_ok in E as (-> & Hb & Hi & Hs).
    destruct (coh_alive _ _ _ _ _ Hc Hb Hi Hs) as [U V]; cbn [is_raw] in V.
    apply (coh_upd _ _ _ _ _ _ _ Hc Hb Hi Hs); [split; assumption|reflexivity|reflexivity|discriminate| | |].
    + intros d j. cbn. rewrite (Nat.eqb_sym n d), (Z.eqb_sym z j). destruct (Nat.eqb d n && (j =? z)); lia.
    + cbn; intros; discriminate.
    + cbn; intros d j X. apply andb_true_iff in X as [X _]. apply Nat.eqb_eq in X. congruence.
  - unfold assign in H. inv_ok. apply slot_ok in E as (-> & Hb & Hi & Hs).
    destruct (coh_alive _ _ _ _ _ Hc Hb Hi Hs) as [U V]; cbn [is_raw] in V.
    apply (coh_upd _ _ _ _ _ _ _ Hc Hb Hi Hs); [split; assumption|reflexivity|reflexivity|discriminate| | |].
    + intros d j. cbn. lia.
    + cbn; intros; discriminate.
    + cbn; intros; discriminate.
  - unfold take_from in H. inv_ok. apply slot_ok in E as (-> & Hb & Hi & Hs).
    destruct (coh_alive _ _ _ _ _ Hc Hb Hi Hs) as [U V]; cbn [is_raw] in V.
    apply (coh_upd _ _ _ _ _ _ _ Hc Hb Hi Hs); [split; assumption|reflexivity|reflexivity|discriminate| | |].
    + intros d j. cbn. lia.
    + cbn; intros; discriminate.
    + cbn; intros; discriminate.
Qed.
Lemma coh_reach m m' : reach m m' -> coh m -> coh m'.
Proof. induction 1; eauto using coh_prim. Qed.

Lemma coh_legal m : coh m -> legal_trace (trace m).
Proof. intros H; apply H. Qed.
Lemma coh_gone m : coh m -> blocks m = ∅ -> objects_gone (trace m) /\ buffers_gone (trace m).
Proof.
  intros (L & H1 & H2 & H3 & H4 & H5 & H6) He. split.
  - intros b i. apply H3. rewrite He. apply lookup_empty.
  - intros b. destruct (Nat.lt_ge_cases b (nextb m)) as [X|X].
    + destruct (H5 b X) as [-> ->]; [rewrite He; apply lookup_empty|reflexivity].
    + destruct (H4 b X) as (-> & -> & _). reflexivity.
Qed.
Lemma count_pos f e t : In e t -> f e = true -> (0 < count f t)%nat.
Proof.
  intros H Hf. unfold count. assert (X : In e (List.filter f t)) by (apply filter_In; auto).
  destruct (List.filter f t); [destruct X|cbn; lia].
Qed.
Lemma coh_gone_nonempty m : coh m -> (forall b cs, blocks m !! b = Some cs -> cs = []) ->
  objects_gone (trace m) /\ nonempty_buffers_gone (trace m).
Proof.
  intros (L & H1 & H2 & H3 & H4 & H5 & H6) He. split.
  - intros b i. destruct (blocks m !! b) as [cs|] eqn:E; [|exact (H3 _ i E)].
    unfold dead. rewrite (H2 _ _ i E). rewrite (He _ _ E). unfold live_at. rewrite lookup_nil, andb_false_r. lia.
  - intros b n Hin Hn. destruct (blocks m !! b) as [cs|] eqn:E.
    + pose proof (H6 _ _ Hin _ E) as X. rewrite (He _ _ E) in X. cbn in X. lia.
    + destruct (Nat.lt_ge_cases b (nextb m)) as [X|X]; [apply H5; assumption|].
      destruct (H4 b X) as (Y & _). pose proof (count_pos (is_alloc b) _ _ Hin) as Z.
      cbn in Z. rewrite Nat.eqb_refl in Z. specialize (Z eq_refl). lia.
Qed.

(** Composite steps. *)
Lemma reach_move_assign smk p q m m' : move_assign smk p q m = Ok m' -> reach m m'.
Proof.
  unfold move_assign. intros H. inv_ok.
  - eapply reach1, prim_assign; eassumption.
  - eapply reach_trans; [eapply reach1, prim_take; eassumption|eapply reach1, prim_assign; eassumption].
Qed.
Lemma reach_read_arg a m v m' : read_arg a m = Ok (v, m') -> reach m m'.
Proof.
  destruct a; cbn [read_arg]; intros H; inv_ok; try constructor. eapply reach1, prim_take; eassumption.
Qed.
Lemma reach_destroy_range fuel : forall p q m m', destroy_range fuel p q m = Ok m' -> reach m m'.
Proof.
  induction fuel as [|f IH]; intros p q m m'; cbn [destroy_range]; [discriminate|]. intros H.
  destruct (ptr_eqb p q); inv_ok; [constructor|].
  eapply reach_trans; [eapply reach1, prim_dtor; eassumption|eauto].
Qed.

(** ** Frames: what an operation owning the buffers [o] may change, owning [o'] afterwards. *)
Definition fresh (m : mem) : Prop := forall b, (nextb m <= b)%nat -> blocks m !! b = None.
Definition fr (o : list nat) (m : mem) (o' : list nat) (m' : mem) : Prop :=
  (nextb m <= nextb m')%nat /\
  (forall b, ~ In b o -> (b < nextb m)%nat -> blocks m' !! b = blocks m !! b) /\
  (forall b, In b o' -> (b < nextb m)%nat -> In b o) /\
  (forall b cs, blocks m' !! b = Some cs -> In b o' \/ cs = [] \/ (~ In b o /\ blocks m !! b = Some cs)) /\
  fresh m'.

Lemma fr_refl o m : fresh m -> fr o m o m.
Proof.
  intros Hf. split; [lia|]. split; [auto|]. split; [auto|]. split; [|exact Hf].
  intros b cs H. destruct (in_dec Nat.eq_dec b o); [left; assumption|right; right; auto].
Qed.
Lemma fr_trans o m o1 m1 o2 m2 : fr o m o1 m1 -> fr o1 m1 o2 m2 -> fr o m o2 m2.
Proof.
  intros (A1 & A2 & A3 & A4 & A5) (B1 & B2 & B3 & B4 & B5).
  split; [lia|]. split; [|split; [|split; [|exact B5]]].
  - intros b Hn Hlt. rewrite B2; [auto| |lia]. intros X. apply Hn, A3; assumption.
  - intros b Hi Hlt. apply A3; [apply B3; [exact Hi|lia]|exact Hlt].
  - intros b cs H. destruct (B4 _ _ H) as [X|[X|[X Y]]]; [auto|auto|].
    destruct (A4 _ _ Y) as [Z|[Z|Z]]; [contradiction|auto|auto].
Qed.
Lemma fr_frame x o m o' m' : fr o m o' m' -> fr (x ++ o) m (x ++ o') m'.
Proof.
  intros (A1 & A2 & A3 & A4 & A5). split; [lia|]. split; [|split; [|split; [|exact A5]]].
  - intros b Hn Hlt. apply A2; [intros X; apply Hn, in_or_app; auto|exact Hlt].
  - intros b Hi Hlt. apply in_or_app. apply in_app_or in Hi as [Hi|Hi]; auto.
  - intros b cs H. destruct (A4 _ _ H) as [X|[X|[X Y]]]; [left; apply in_or_app; auto|auto|].
    destruct (in_dec Nat.eq_dec b x); [left; apply in_or_app; auto|].
    right; right. split; [|exact Y]. intros Z. apply in_app_or in Z as [Z|Z]; contradiction.
Qed.
Lemma fr_equiv o p o' p' m m' : (forall b, In b o <-> In b p) -> (forall b, In b o' <-> In b p') ->
  fr o m o' m' -> fr p m p' m'.
Proof.
  intros X Y (A1 & A2 & A3 & A4 & A5). split; [lia|]. split; [|split; [|split; [|exact A5]]].
  - intros b Hn Hlt. apply A2; [rewrite X; exact Hn|exact Hlt].
  - intros b Hi Hlt. apply X, A3; [apply Y; exact Hi|exact Hlt].
  - intros b cs H. rewrite <- Y, <- X. exact (A4 _ _ H).
Qed.
Lemma fr_fresh o m o' m' : fr o m o' m' -> fresh m'.
Proof. intros (_ & _ & _ & _ & H). exact H. Qed.
Lemma fr_keep o m o' m' b cs : fresh m -> fr o m o' m' -> ~ In b o -> blocks m !! b = Some cs -> blocks m' !! b = Some cs.
Proof.
  intros Hf (_ & H & _) Hn Hb. rewrite H; [exact Hb|exact Hn|].
  destruct (Nat.lt_ge_cases b (nextb m)) as [X|X]; [exact X|]. rewrite (Hf _ X) in Hb. discriminate.
Qed.

Lemma fr_upd m b cs cs' e : fresh m -> blocks m !! b = Some cs -> fr [b] m [b] (upd m b cs' e).
Proof.
  intros Hf Hb. split; [cbn; lia|]. cbn [upd blocks nextb]. split; [|split; [auto|split]].
  - intros d Hn Hlt. rewrite lookup_insert_ne; [reflexivity|]. intros ->. apply Hn. left. reflexivity.
  - intros d cs0 H. destruct (decide (d = b)) as [->|Hne]; [left; left; reflexivity|].
    rewrite lookup_insert_ne in H by congruence. right; right. split; [|exact H]. intros [X|[]]. congruence.
  - intros d Hd. cbn in Hd. cbn [upd blocks]. rewrite lookup_insert_ne; [apply Hf; exact Hd|].
    intros ->. rewrite (Hf _ Hd) in Hb. discriminate.
Qed.
Lemma fr_alloc esz n m p m' : fresh m -> alloc_buf esz n m = Ok (p, m') ->
  fr [] m [nextb m] m' /\ p = Ptr (nextb m) 0 /\ blocks m' !! nextb m = Some (replicate (Z.to_nat n) Raw) /\
  trace m' = EAlloc (nextb m) n :: trace m.
Proof.
  unfold alloc_buf. intros Hf H. inv_ok. cbn [blocks trace]. rewrite lookup_insert.
  split; [|auto]. split; [cbn; lia|]. cbn [blocks nextb]. split; [|split; [|split]].
  - intros b _ Hlt. rewrite lookup_insert_ne by lia. reflexivity.
  - intros b [<-|[]] Hlt. lia.
  - intros b cs H. destruct (decide (b = nextb m)) as [->|Hne]; [left; left; reflexivity|].
    rewrite lookup_insert_ne in H by congruence. right; right. split; [intros []|exact H].
  - intros b Hb. cbn in Hb. cbn [blocks]. rewrite lookup_insert_ne by lia. apply Hf. lia.
Qed.
Lemma fr_free m b : fresh m -> fr [b] m [] {| blocks := delete b (blocks m); nextb := nextb m; trace := EFree b :: trace m |}.
Proof.
  intros Hf. split; [cbn; lia|]. cbn [blocks nextb]. split; [|split; [intros d []|split]].
  - intros d Hn _. rewrite lookup_delete_ne; [reflexivity|]. intros ->. apply Hn. left. reflexivity.
  - intros d cs H. destruct (decide (d = b)) as [->|Hne]; [rewrite lookup_delete in H; discriminate|].
    rewrite lookup_delete_ne in H by congruence. right; right. split; [|exact H]. intros [X|[]]. congruence.
  - intros d Hd. cbn in Hd. cbn [blocks]. destruct (decide (d = b)) as [->|Hne]; [apply lookup_delete|].
    rewrite lookup_delete_ne by congruence. apply Hf. exact Hd.
Qed.
Lemma fr_drop_empty m b : fresh m -> blocks m !! b = Some [] -> fr [b] m [] m.
Proof.
  intros Hf Hb. split; [lia|]. split; [auto|]. split; [intros d []|]. split; [|exact Hf].
  intros d cs H. destruct (decide (d = b)) as [->|Hne]; [rewrite Hb in H; injection H as <-; auto|].
  right; right. split; [|exact H]. intros [X|[]]. congruence.
Qed.

(** ** Primitives on a buffer split at the slot they touch *)
Lemma slot_app m b i (pre : list cell) c post :
  blocks m !! b = Some (pre ++ c :: post) -> i = Z.of_nat (length pre) ->
  slot m (Ptr b i) = Ok (b, i, pre ++ c :: post, c).
Proof.
  intros Hb ->. unfold slot. rewrite Hb. cbn [of_option obind]. replace (0 <=? Z.of_nat (length pre)) with true by lia.
  rewrite Nat2Z.id, lookup_app_r, Nat.sub_diag by lia. reflexivity.
Qed.
Lemma insert_mid (pre : list cell) c c' post i : i = Z.of_nat (length pre) ->
  <[Z.to_nat i := c']> (pre ++ c :: post) = pre ++ c' :: post.
Proof. intros ->. rewrite Nat2Z.id, insert_app_r_alt, Nat.sub_diag by lia. reflexivity. Qed.

Lemma ctor_app m b i v (pre : list cell) post :
  blocks m !! b = Some (pre ++ Raw :: post) -> i = Z.of_nat (length pre) ->
  ctor (Ptr b i) v m = Ok (upd m b (pre ++ Live v :: post) (ECtor b i)).
Proof.
  intros Hb Hi. unfold ctor. rewrite (slot_app _ _ _ _ _ _ Hb Hi). cbn [obind].
  rewrite (insert_mid _ _ _ _ _ Hi). reflexivity.
Qed.
Lemma dtor_app m b i v (pre : list cell) post :
  blocks m !! b = Some (pre ++ Live v :: post) -> i = Z.of_nat (length pre) ->
  dtor (Ptr b i) m = Ok (upd m b (pre ++ Raw :: post) (EDtor b i)).
Proof.
  intros Hb Hi. unfold dtor. rewrite (slot_app _ _ _ _ _ _ Hb Hi). cbn [obind].
  rewrite (insert_mid _ _ _ _ _ Hi). reflexivity.
Qed.
Lemma assign_app m b i v w (pre : list cell) post :
  blocks m !! b = Some (pre ++ Live v :: post) -> i = Z.of_nat (length pre) ->
  assign (Ptr b i) w m = Ok (upd m b (pre ++ Live w :: post) (EAssign b i)).
Proof.
  intros Hb Hi. unfold assign. rewrite (slot_app _ _ _ _ _ _ Hb Hi). cbn [obind].
  rewrite (insert_mid _ _ _ _ _ Hi). reflexivity.
Qed.
Lemma load_app m b i v (pre : list cell) post :
  blocks m !! b = Some (pre ++ Live v :: post) -> i = Z.of_nat (length pre) -> load (Ptr b i) m = Ok v.
Proof. intros Hb Hi. unfold load. rewrite (slot_app _ _ _ _ _ _ Hb Hi). reflexivity. Qed.
Lemma take_app m b i v (pre : list cell) post :
  blocks m !! b = Some (pre ++ Live v :: post) -> i = Z.of_nat (length pre) ->
  take_from (Ptr b i) m = Ok (v, upd m b (pre ++ Live None :: post) (EMove b i)).
Proof.
  intros Hb Hi. unfold take_from. rewrite (slot_app _ _ _ _ _ _ Hb Hi). cbn [obind].
  rewrite (insert_mid _ _ _ _ _ Hi). reflexivity.
Qed.
Lemma upd_blocks (m : mem) b cs e : blocks (upd m b cs e) !! b = Some cs.
Proof. apply lookup_insert. Qed.
Lemma upd_fresh (m : mem) b cs cs' e : fresh m -> blocks m !! b = Some cs -> fresh (upd m b cs' e).
Proof. intros. eapply fr_fresh, fr_upd; eassumption. Qed.

(** Moving slot j to an earlier slot, a later slot, itself. *)
Lemma move_down_app smk m b i j v w (pre mid post : list cell) :
  blocks m !! b = Some (pre ++ Live v :: mid ++ Live w :: post) ->
  i = Z.of_nat (length pre) -> j = Z.of_nat (length pre + S (length mid)) -> exists m',
  move_assign smk (Ptr b i) (Ptr b j) m = Ok m' /\
  blocks m' !! b = Some (pre ++ Live w :: mid ++ Live None :: post) /\ (fresh m -> fr [b] m [b] m').
Proof.
  intros Hb Hi Hj. unfold move_assign.
  replace (ptr_eqb (Ptr b i) (Ptr b j)) with false
    by (symmetry; apply not_true_iff_false; rewrite ptr_eqb_eq; intros [= X]; lia).
  assert (Hb1 : blocks m !! b = Some ((pre ++ Live v :: mid) ++ Live w :: post)) by (rewrite Hb, <- app_assoc; reflexivity).
  erewrite (take_app _ _ _ _ _ _ Hb1) by (rewrite app_length; cbn [length]; exact Hj). cbn [obind].
  set (m1 := upd m b _ _).
  assert (Hb2 : blocks m1 !! b = Some (pre ++ Live v :: (mid ++ Live None :: post))).
  { unfold m1. rewrite upd_blocks, <- app_assoc. reflexivity. }
  rewrite (assign_app _ _ _ _ w _ _ Hb2 Hi). eexists. split; [reflexivity|]. split; [apply upd_blocks|].
  intros Hf. eapply fr_trans; [eapply (fr_upd _ _ _ _ _ Hf Hb)|].
  eapply fr_upd; [|exact Hb2]. eapply upd_fresh; eassumption.
Qed.
Lemma move_up_app smk m b i v w (pre post : list cell) :
  blocks m !! b = Some (pre ++ Live v :: Live w :: post) -> i = Z.of_nat (length pre) -> exists m',
  move_assign smk (Ptr b (i + 1)) (Ptr b i) m = Ok m' /\
  blocks m' !! b = Some (pre ++ Live None :: Live v :: post) /\ (fresh m -> fr [b] m [b] m').
Proof.
  intros Hb Hi. unfold move_assign.
  replace (ptr_eqb (Ptr b (i + 1)) (Ptr b i)) with false
    by (symmetry; apply not_true_iff_false; rewrite ptr_eqb_eq; intros [= X]; lia).
  rewrite (take_app _ _ _ _ _ _ Hb Hi). cbn [obind].
  set (m1 := upd m b _ _).
  assert (Hb2 : blocks m1 !! b = Some ((pre ++ [Live None]) ++ Live w :: post)).
  { unfold m1. rewrite upd_blocks, <- app_assoc. reflexivity. }
  erewrite (assign_app _ _ _ _ v _ _ Hb2) by (rewrite app_length; cbn [length]; lia).
  eexists. split; [reflexivity|]. split; [rewrite upd_blocks, <- app_assoc; reflexivity|].
  intros Hf. eapply fr_trans; [eapply (fr_upd _ _ _ _ _ Hf Hb)|].
  eapply fr_upd; [|exact Hb2]. eapply upd_fresh; eassumption.
Qed.
Lemma move_self_app smk m b i v (pre post : list cell) :
  blocks m !! b = Some (pre ++ Live v :: post) -> i = Z.of_nat (length pre) -> exists m',
  move_assign smk (Ptr b i) (Ptr b i) m = Ok m' /\
  blocks m' !! b = Some (pre ++ Live (if smk then v else None) :: post) /\ (fresh m -> fr [b] m [b] m').
Proof.
  intros Hb Hi. unfold move_assign.
  replace (ptr_eqb (Ptr b i) (Ptr b i)) with true by (symmetry; apply ptr_eqb_eq; reflexivity).
  rewrite (load_app _ _ _ _ _ _ Hb Hi). cbn [obind].
  rewrite (assign_app _ _ _ _ (if smk then v else None) _ _ Hb Hi). eexists. split; [reflexivity|].
  split; [apply upd_blocks|]. intros Hf. eapply fr_upd; eassumption.
Qed.

(** Destroying a run of live objects. *)
Lemma destroy_range_ok fuel : forall m b (pre : list cell) os post i j,
  (length os < fuel)%nat -> blocks m !! b = Some (pre ++ (Live <$> os) ++ post) -> fresh m ->
  i = Z.of_nat (length pre) -> j = Z.of_nat (length pre + length os) -> exists m',
  destroy_range fuel (Ptr b i) (Ptr b j) m = Ok m' /\
  blocks m' !! b = Some (pre ++ replicate (length os) Raw ++ post) /\ fr [b] m [b] m' /\
  count is_move (trace m') = count is_move (trace m).
Proof.
  induction fuel as [|f IH]; intros m b pre os post i j Hl Hb Hf Hi Hj; [lia|]. cbn [destroy_range].
  destruct os as [|x os].
  - cbn [length] in *. replace (ptr_eqb (Ptr b i) (Ptr b j)) with true by (symmetry; apply ptr_eqb_eq; f_equal; lia).
    exists m. split; [reflexivity|]. split; [exact Hb|]. split; [apply fr_refl; exact Hf|reflexivity].
  - cbn [length] in *.
    replace (ptr_eqb (Ptr b i) (Ptr b j)) with false
      by (symmetry; apply not_true_iff_false; rewrite ptr_eqb_eq; intros [= X]; lia).
    cbn [fmap list_fmap app] in Hb. rewrite (dtor_app _ _ _ _ _ _ Hb Hi). cbn [obind padd].
    set (m1 := upd m b _ _).
    destruct (IH m1 b (pre ++ [Raw]) os post (i + 1) j) as (m' & E & Hb' & Hfr & Hc).
    + lia.
    + unfold m1. rewrite upd_blocks, <- app_assoc. reflexivity.
    + eapply upd_fresh; eassumption.
    + rewrite app_length. cbn [length]. lia.
    + rewrite app_length. cbn [length]. lia.
    + exists m'. split; [exact E|]. split; [rewrite Hb', <- app_assoc; reflexivity|].
      split; [eapply fr_trans; [eapply fr_upd; eassumption|exact Hfr]|]. rewrite Hc. unfold m1. cbn [upd trace].
      rewrite count_cons. reflexivity.
Qed.
End proofs.
