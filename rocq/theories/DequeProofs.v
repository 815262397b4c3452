(** The deque operations keep the representation. *)
From stdpp Require Import gmap list.
From Coq Require Import ZArith Lia ZifyBool ZifyNat.
From Verif Require Import Base ObjModel ObjSpec ObjProofs DequeModel DequeSpec.
Local Open Scope Z_scope.
Local Open Scope outcome_scope.
Ltac Zify.zify_post_hook ::= Z.div_mod_to_equations.

Section proofs.
Context {A : Type} (esz : Z) (Hblock : 16 * esz < 2 ^ 63).
Notation val := (A + nat)%type.
Notation mem := (mem val).
Notation cell := (cell val).
Implicit Types (m : mem) (d : deq) (q : sq A) (o : list nat).

Lemma w64_id x : 0 <= x < 2 ^ 64 -> w64 x = x.
Proof. intros. unfold w64. apply Z.mod_small. assumption. Qed.

(** Slots by index. *)
Lemma slot_at m b (j : nat) (cs : list cell) c : blocks m !! b = Some cs -> cs !! j = Some c ->
  slot m (Ptr b (Z.of_nat j)) = Ok (b, Z.of_nat j, cs, c).
Proof.
  intros Hb Hc. unfold slot. rewrite Hb. cbn [of_option obind]. replace (0 <=? Z.of_nat j) with true by lia.
  rewrite Nat2Z.id, Hc. reflexivity.
Qed.
Lemma ctor_at m b (j : nat) (cs : list cell) v : blocks m !! b = Some cs -> cs !! j = Some Raw ->
  ctor (Ptr b (Z.of_nat j)) v m = Ok (upd m b (<[j := Live v]> cs) (ECtor b (Z.of_nat j))).
Proof. intros Hb Hc. unfold ctor. rewrite (slot_at _ _ _ _ _ Hb Hc). cbn [obind]. rewrite Nat2Z.id. reflexivity. Qed.
Lemma dtor_at m b (j : nat) (cs : list cell) v : blocks m !! b = Some cs -> cs !! j = Some (Live v) ->
  dtor (Ptr b (Z.of_nat j)) m = Ok (upd m b (<[j := Raw]> cs) (EDtor b (Z.of_nat j))).
Proof. intros Hb Hc. unfold dtor. rewrite (slot_at _ _ _ _ _ Hb Hc). cbn [obind]. rewrite Nat2Z.id. reflexivity. Qed.
Lemma load_at m b (j : nat) (cs : list cell) v : blocks m !! b = Some cs -> cs !! j = Some (Live v) ->
  load (Ptr b (Z.of_nat j)) m = Ok v.
Proof. intros Hb Hc. unfold load. rewrite (slot_at _ _ _ _ _ Hb Hc). reflexivity. Qed.
Lemma load_raw m b (j : nat) (cs : list cell) : blocks m !! b = Some cs -> cs !! j = Some Raw ->
  load (Ptr b (Z.of_nat j)) m = UB.
Proof. intros Hb Hc. unfold load. rewrite (slot_at _ _ _ _ _ Hb Hc). reflexivity. Qed.

(** A frame inside a larger owner list. *)
Lemma fr_in x o m o' m' p p' : fr o m o' m' -> (forall b, In b p <-> In b (x ++ o)) -> (forall b, In b p' <-> In b (x ++ o')) ->
  fr p m p' m'.
Proof.
  intros H H1 H2. eapply fr_equiv; [intros b; symmetry; apply H1|intros b; symmetry; apply H2|]. apply fr_frame, H.
Qed.

(** ** The storage of a deque: an array of block addresses, and the blocks, whose cells taken together
    are [f]. *)
Definition pcell (b : nat) : cell := Live (Some (inr b)).
Definition body (arr : nat) (blks : list nat) (f : nat -> cell) m : Prop :=
  NoDup (arr :: blks) /\ blocks m !! arr = Some (pcell <$> blks) /\
  forall k b, blks !! k = Some b -> exists cs, blocks m !! b = Some cs /\ length cs = 16%nat /\
    forall i, (i < 16)%nat -> cs !! i = Some (f (16 * k + i)%nat).

Lemma body_ext arr blks f g m : body arr blks f m -> (forall n, (n < 16 * length blks)%nat -> f n = g n) -> body arr blks g m.
Proof.
  intros (H1 & H2 & H3) Hfg. split; [exact H1|]. split; [exact H2|]. intros k b Hk. destruct (H3 _ _ Hk) as (cs & X & Y & Z).
  exists cs. split; [exact X|]. split; [exact Y|]. intros i Hi. rewrite Z by exact Hi. f_equal. apply Hfg.
  apply lookup_lt_Some in Hk. lia.
Qed.
Lemma body_keep arr blks f m o o' m' : fresh m -> fr o m o' m' -> (forall b, In b (arr :: blks) -> ~ In b o) ->
  body arr blks f m -> body arr blks f m'.
Proof.
  intros Hf Hfr Hn (H1 & H2 & H3). split; [exact H1|]. split.
  - eapply fr_keep; [exact Hf|exact Hfr| |exact H2]. apply Hn. left. reflexivity.
  - intros k b Hk. destruct (H3 _ _ Hk) as (cs & X & Y & Z). exists cs. split; [|auto].
    eapply fr_keep; [exact Hf|exact Hfr| |exact X]. apply Hn. right. eapply elem_of_list_In, elem_of_list_lookup_2, Hk.
Qed.
Lemma body_lt arr blks f m b : fresh m -> body arr blks f m -> In b (arr :: blks) -> (b < nextb m)%nat.
Proof.
  intros Hf (H1 & H2 & H3) Hb. assert (exists cs, blocks m !! b = Some cs) as (cs & X).
  { destruct Hb as [<-|Hb]; [eauto|]. apply elem_of_list_In, elem_of_list_lookup in Hb as (k & Hk).
    destruct (H3 _ _ Hk) as (cs & X & _). eauto. }
  destruct (Nat.lt_ge_cases b (nextb m)) as [Y|Y]; [exact Y|]. rewrite (Hf _ Y) in X. discriminate.
Qed.
(** Position [n]. *)
Lemma body_pos arr blks f m n : body arr blks f m -> (n < 16 * length blks)%nat ->
  exists b cs, blks !! (n / 16)%nat = Some b /\ b <> arr /\ blocks m !! b = Some cs /\ length cs = 16%nat /\ cs !! (n mod 16)%nat = Some (f n).
Proof.
  intros (H1 & H2 & H3) Hn. destruct (lookup_lt_is_Some_2 blks (n / 16)%nat) as (b & Hb).
  { apply Nat.div_lt_upper_bound; lia. }
  destruct (H3 _ _ Hb) as (cs & X & Y & Z). exists b, cs. split; [exact Hb|]. split.
  { intros ->. inversion H1. subst. apply H4. eapply elem_of_list_lookup_2, Hb. }
  split; [exact X|]. split; [exact Y|]. rewrite (Z (n mod 16)%nat) by (apply Nat.mod_upper_bound; lia).
  f_equal. f_equal. symmetry. apply Nat.div_mod. lia.
Qed.
Lemma body_ptr arr blks f m d n b : body arr blks f m -> dblocks d = Ptr arr 0 -> blks !! (n / 16)%nat = Some b ->
  obj_ptr d (Z.of_nat n) m = Ok (Ptr b (Z.of_nat (n mod 16))).
Proof.
  intros (H1 & H2 & H3) Hd Hb. unfold obj_ptr. rewrite Hd. cbn [padd obind]. unfold load_ptr.
  replace (0 + Z.of_nat n / 16) with (Z.of_nat (n / 16)) by lia.
  erewrite load_at; [|exact H2|rewrite list_lookup_fmap, Hb; reflexivity]. cbn [obind].
  f_equal. f_equal. lia.
Qed.
Lemma body_set arr blks f m n b cs c e : body arr blks f m -> blks !! (n / 16)%nat = Some b -> blocks m !! b = Some cs ->
  body arr blks (fun k => if Nat.eqb k n then c else f k) (upd m b (<[(n mod 16)%nat := c]> cs) e).
Proof.
  intros (H1 & H2 & H3) Hb Hcs. pose proof H1 as Hnd. apply NoDup_cons in Hnd as [Hna Hnd].
  assert (Hne : b <> arr) by (intros ->; apply Hna; eapply elem_of_list_lookup_2, Hb).
  split; [exact H1|]. split; [cbn [upd blocks]; rewrite lookup_insert_ne by congruence; exact H2|].
  intros k b' Hk. destruct (H3 _ _ Hk) as (cs' & X & Y & Z). destruct (decide (b' = b)) as [->|Hbb].
  - rewrite Hcs in X. injection X as <-. assert (k = (n / 16)%nat) by (eapply NoDup_lookup; eassumption). subst k.
    exists (<[(n mod 16)%nat := c]> cs). split; [apply upd_blocks|]. split; [rewrite insert_length; exact Y|].
    intros i Hi. destruct (Nat.eqb_spec (16 * (n / 16) + i)%nat n) as [E|E].
    + replace i with (n mod 16)%nat by lia. apply list_lookup_insert. lia.
    + rewrite list_lookup_insert_ne by lia. apply Z, Hi.
  - exists cs'. cbn [upd blocks]. rewrite lookup_insert_ne by congruence. split; [exact X|]. split; [exact Y|].
    intros i Hi. destruct (Nat.eqb_spec (16 * k + i)%nat n) as [E|E]; [|apply Z, Hi].
    exfalso. assert (k = (n / 16)%nat) by lia. subst k. congruence.
Qed.
Lemma body_fr arr blks f m n b cs c e : fresh m -> body arr blks f m -> blks !! (n / 16)%nat = Some b -> blocks m !! b = Some cs ->
  fr (arr :: blks) m (arr :: blks) (upd m b (<[(n mod 16)%nat := c]> cs) e).
Proof.
  intros Hf (H1 & H2 & H3) Hb Hcs. eapply (fr_in (arr :: blks) [b] m [b]); [eapply fr_upd; eassumption|..];
  (intros x; rewrite in_app_iff; split; [auto|intros [X|[<-|[]]]; [exact X|right; eapply elem_of_list_In, elem_of_list_lookup_2, Hb]]).
Qed.
Lemma body_ctor arr blks f m d n v : fresh m -> body arr blks f m -> dblocks d = Ptr arr 0 -> (n < 16 * length blks)%nat -> f n = Raw ->
  exists p m', obj_ptr d (Z.of_nat n) m = Ok p /\ ctor p v m = Ok m' /\
    body arr blks (fun k => if Nat.eqb k n then Live v else f k) m' /\ fr (arr :: blks) m (arr :: blks) m'.
Proof.
  intros Hf Hb Hd Hn Hraw. destruct (body_pos _ _ _ _ _ Hb Hn) as (b & cs & H1 & H2 & H3 & H4 & H5). rewrite Hraw in H5.
  eexists _, _. split; [eapply body_ptr; eassumption|]. split; [eapply ctor_at; eassumption|].
  split; [eapply body_set; eassumption|eapply body_fr; eassumption].
Qed.
Lemma body_dtor arr blks f m d n v : fresh m -> body arr blks f m -> dblocks d = Ptr arr 0 -> (n < 16 * length blks)%nat -> f n = Live v ->
  exists p m', obj_ptr d (Z.of_nat n) m = Ok p /\ dtor p m = Ok m' /\
    body arr blks (fun k => if Nat.eqb k n then Raw else f k) m' /\ fr (arr :: blks) m (arr :: blks) m'.
Proof.
  intros Hf Hb Hd Hn Hv. destruct (body_pos _ _ _ _ _ Hb Hn) as (b & cs & H1 & H2 & H3 & H4 & H5). rewrite Hv in H5.
  eexists _, _. split; [eapply body_ptr; eassumption|]. split; [eapply dtor_at; eassumption|].
  split; [eapply body_set; eassumption|eapply body_fr; eassumption].
Qed.
Lemma body_load arr blks f m d n v : body arr blks f m -> dblocks d = Ptr arr 0 -> (n < 16 * length blks)%nat -> f n = Live v ->
  exists p, obj_ptr d (Z.of_nat n) m = Ok p /\ load p m = Ok v.
Proof.
  intros Hb Hd Hn Hv. destruct (body_pos _ _ _ _ _ Hb Hn) as (b & cs & H1 & H2 & H3 & H4 & H5). rewrite Hv in H5.
  eexists. split; [eapply body_ptr; eassumption|eapply load_at; eassumption].
Qed.
Lemma body_unload arr blks f m d n : body arr blks f m -> dblocks d = Ptr arr 0 -> (n < 16 * length blks)%nat -> f n = Raw ->
  exists p, obj_ptr d (Z.of_nat n) m = Ok p /\ load p m = UB.
Proof.
  intros Hb Hd Hn Hv. destruct (body_pos _ _ _ _ _ Hb Hn) as (b & cs & H1 & H2 & H3 & H4 & H5). rewrite Hv in H5.
  eexists. split; [eapply body_ptr; eassumption|eapply load_raw; eassumption].
Qed.

(** ** Pointer arrays *)
Lemma store_raw m a (j : nat) (pre post : list cell) b : blocks m !! a = Some (pre ++ Raw :: post) -> j = length pre ->
  exists m', store_ptr (Ptr a (Z.of_nat j)) b m = Ok m' /\ blocks m' !! a = Some (pre ++ pcell b :: post) /\
    (fresh m -> fr [a] m [a] m').
Proof.
  intros Hb ->. unfold store_ptr. rewrite (slot_app _ _ _ _ _ _ Hb eq_refl). cbn [obind].
  rewrite (ctor_app _ _ _ _ _ _ Hb eq_refl). eexists. split; [reflexivity|]. split; [apply upd_blocks|].
  intros Hf. eapply fr_upd; eassumption.
Qed.
Lemma copy_ptrs_ok todo : forall done m a arr tl i, blocks m !! a = Some ((pcell <$> done) ++ replicate (length todo) Raw ++ tl) ->
  blocks m !! arr = Some (pcell <$> done ++ todo) -> a <> arr -> fresh m -> i = Z.of_nat (length done) ->
  Z.of_nat (length (done ++ todo)) < 2 ^ 31 ->
  exists m', copy_ptrs (length todo) i 0 (Ptr a 0) (Ptr arr 0) m = Ok m' /\
    blocks m' !! a = Some ((pcell <$> done ++ todo) ++ tl) /\ fr [a] m [a] m'.
Proof.
  induction todo as [|b todo IH]; intros done m a arr tl i Ha Harr Hne Hf -> Hlt; cbn [length copy_ptrs replicate] in *.
  - exists m. rewrite app_nil_r. split; [reflexivity|]. split; [exact Ha|]. apply fr_refl, Hf.
  - cbn [padd obind]. rewrite Z.add_0_l. unfold load_ptr.
    erewrite load_at; [|exact Harr|rewrite list_lookup_fmap, lookup_app_r, Nat.sub_diag by lia; reflexivity]. cbn [obind].
    rewrite Z.add_0_l, Z.add_0_r.
    destruct (store_raw m a (length done) (pcell <$> done) (replicate (length todo) Raw ++ tl) b Ha) as (m1 & E & Hm1 & Hfr).
    { rewrite fmap_length. reflexivity. }
    rewrite E. cbn [obind]. rewrite app_length in Hlt. cbn [length] in Hlt.
    replace (Z.of_nat (length done) =? 2 ^ 31 - 1) with false by lia.
    destruct (IH (done ++ [b]) m1 a arr tl (Z.of_nat (length done) + 1)) as (m2 & E2 & Hm2 & Hfr2).
    + rewrite Hm1, fmap_app, <- app_assoc. reflexivity.
    + rewrite <- app_assoc. eapply fr_keep; [exact Hf|exact (Hfr Hf)| |exact Harr]. intros [X|[]]. congruence.
    + exact Hne.
    + eapply fr_fresh, Hfr, Hf.
    + rewrite app_length. cbn [length]. lia.
    + rewrite !app_length. cbn [length]. lia.
    + exists m2. split; [exact E2|]. rewrite <- app_assoc in Hm2. split; [exact Hm2|]. eapply fr_trans; [exact (Hfr Hf)|exact Hfr2].
Qed.
Lemma drop_ptrs_ok post : forall m a (k : nat) i, blocks m !! a = Some (replicate k Raw ++ (pcell <$> post)) -> fresh m -> i = Z.of_nat k ->
  exists m', drop_ptrs (length post) (Ptr a i) m = Ok m' /\ blocks m' !! a = Some (replicate (k + length post) Raw) /\ fr [a] m [a] m'.
Proof.
  induction post as [|b post IH]; intros m a k i Ha Hf ->; cbn [length drop_ptrs].
  - exists m. rewrite Nat.add_0_r. cbn [fmap list_fmap] in Ha. rewrite app_nil_r in Ha. split; [reflexivity|]. split; [exact Ha|apply fr_refl, Hf].
  - rewrite fmap_cons in Ha. erewrite (slot_app _ _ _ _ _ _ Ha) by (rewrite replicate_length; reflexivity). cbn [obind pcell].
    erewrite (dtor_app _ _ _ _ _ _ Ha) by (rewrite replicate_length; reflexivity). cbn [obind padd].
    destruct (IH (upd m a (replicate k Raw ++ Raw :: (pcell <$> post)) (EDtor a (Z.of_nat k))) a (S k) (Z.of_nat k + 1)) as (m' & E & H1 & H2).
    + rewrite upd_blocks. rewrite replicate_S_end, <- app_assoc. reflexivity.
    + eapply upd_fresh; eassumption.
    + lia.
    + exists m'. split; [exact E|]. split; [rewrite H1; f_equal; f_equal; lia|].
      eapply fr_trans; [eapply fr_upd; eassumption|exact H2].
Qed.
Lemma forallb_raw n : forallb is_raw (replicate n Raw : list cell) = true.
Proof. induction n; [reflexivity|assumption]. Qed.
Lemma free_ptrs_ok m a blks : blocks m !! a = Some (pcell <$> blks) -> fresh m ->
  exists m', free_ptrs (Ptr a 0) m = Ok m' /\ fr [a] m [] m'.
Proof.
  intros Ha Hf. unfold free_ptrs. rewrite Ha. cbn [of_option obind]. rewrite fmap_length.
  destruct (drop_ptrs_ok blks m a 0%nat 0 Ha Hf eq_refl) as (m1 & E & H1 & H2). rewrite E. cbn [obind].
  unfold free_buf. rewrite H1. cbn [of_option obind]. rewrite forallb_raw. cbn [Z.eqb andb].
  eexists. split; [reflexivity|]. eapply fr_trans; [exact H2|]. apply fr_free. eapply fr_fresh, H2.
Qed.

(** One more block in a fresh array. *)
Lemma alloc_control_ok m (n start : nat) : fresh m -> (start <= n)%nat -> Z.of_nat n < 2 ^ 31 ->
  exists m', alloc_control esz (1 + Z.of_nat n) (Z.of_nat start) (Z.of_nat start + 1) m = Ok (Ptr (nextb m) 0, m') /\
    blocks m' !! nextb m = Some (replicate start Raw ++ pcell (S (nextb m)) :: replicate (n - start) Raw) /\
    blocks m' !! S (nextb m) = Some (replicate 16 Raw) /\ fr [] m [nextb m; S (nextb m)] m'.
Proof.
  intros Hf Hs Hn. unfold alloc_control.
  destruct (alloc_buf 8 (1 + Z.of_nat n) m) as [[p m1]| |] eqn:E1.
  2-3: exfalso; unfold alloc_buf in E1; replace ((0 <=? 1 + Z.of_nat n) && ((1 + Z.of_nat n) * 8 <? 2 ^ 63)) with true in E1 by lia; discriminate.
  assert (Hnx1 : nextb m1 = S (nextb m)) by (unfold alloc_buf in E1; inv_ok; reflexivity).
  destruct (fr_alloc _ _ _ _ _ Hf E1) as (F1 & -> & Hb1 & _). cbn [obind].
  replace (Z.to_nat (Z.of_nat start + 1 - Z.of_nat start)) with 1%nat by lia. cbn [alloc_blocks].
  destruct (alloc_buf esz 16 m1) as [[p m2]| |] eqn:E2.
  2-3: exfalso; unfold alloc_buf in E2; replace ((0 <=? 16) && (16 * esz <? 2 ^ 63)) with true in E2 by lia; discriminate.
  destruct (fr_alloc _ _ _ _ _ (fr_fresh _ _ _ _ F1) E2) as (F2 & -> & Hb2 & _). cbn [obind padd]. rewrite Hnx1 in *.
  assert (Hb1' : blocks m2 !! nextb m = Some (replicate start Raw ++ Raw :: replicate (n - start) Raw)).
  { erewrite fr_keep; [|exact (fr_fresh _ _ _ _ F1)|exact F2|intros []|exact Hb1]. f_equal.
    replace (Z.to_nat (1 + Z.of_nat n)) with (start + S (n - start))%nat by lia. rewrite replicate_add. reflexivity. }
  replace (0 + Z.of_nat start) with (Z.of_nat start) by lia.
  destruct (store_raw m2 (nextb m) start _ _ (S (nextb m)) Hb1') as (m3 & E3 & Hb3 & F3); [rewrite replicate_length; reflexivity|].
  rewrite E3. cbn [obind]. specialize (F3 (fr_fresh _ _ _ _ F2)). exists m3. split; [reflexivity|]. split; [exact Hb3|]. split.
  - eapply fr_keep; [exact (fr_fresh _ _ _ _ F2)|exact F3| |exact Hb2]. intros [X|[]]. lia.
  - eapply fr_trans; [exact F1|]. eapply fr_trans.
    + eapply (fr_in [nextb m] [] m1 [S (nextb m)]); [exact F2|intros; rewrite in_app_iff; cbn; tauto|intros; rewrite in_app_iff; cbn; tauto].
    + eapply (fr_in [S (nextb m)] [nextb m] m2 [nextb m]); [exact F3|intros; rewrite in_app_iff; cbn; tauto..].
Qed.

(** ** A deque and its sequence *)
Definition want q (n : nat) : cell :=
  if (head q <=? n)%nat then match elems q !! (n - head q)%nat with Some a => Live (value a) | None => Raw end else Raw.
Definition drep d q o m : Prop :=
  dbs d = Z.of_nat (room q) /\ dsize d = Z.of_nat (len q) /\ dfirst d = Z.of_nat (head q) /\
  dlast d = Z.of_nat (head q + Nat.max (len q) 1 - 1) /\ Z.of_nat (room q) < 2 ^ 31 /\
  ((room q = 0%nat /\ dblocks d = Null /\ elems q = [] /\ head q = 0%nat /\ o = []) \/
   (exists arr blks, (head q + Nat.max (len q) 1 <= 16 * room q)%nat /\ dblocks d = Ptr arr 0 /\ o = arr :: blks /\
      length blks = room q /\ body arr blks (want q) m)).

Lemma drep0 m : drep deq0 sq0 [] m.
Proof. split; [reflexivity|]. split; [reflexivity|]. split; [reflexivity|]. split; [reflexivity|]. split; [cbn; lia|]. left. auto. Qed.
Lemma drep_lt d q o m b : fresh m -> drep d q o m -> In b o -> (b < nextb m)%nat.
Proof.
  intros Hf (_ & _ & _ & _ & _ & [(_ & _ & _ & _ & ->)|(arr & blks & _ & _ & -> & _ & H)]) Hb; [destruct Hb|]. eapply body_lt; eassumption.
Qed.
Lemma drep_keep d q o m o1 o2 m' : fresh m -> fr o1 m o2 m' -> (forall b, In b o -> ~ In b o1) -> drep d q o m -> drep d q o m'.
Proof.
  intros Hf Hfr Hn (H1 & H2 & H3 & H4 & H5 & H6). split; [exact H1|]. split; [exact H2|]. split; [exact H3|]. split; [exact H4|]. split; [exact H5|].
  destruct H6 as [H6|(arr & blks & X & Y & -> & Z & W)]; [left; exact H6|right]. exists arr, blks.
  split; [exact X|]. split; [exact Y|]. split; [reflexivity|]. split; [exact Z|]. eapply body_keep; eassumption.
Qed.
Lemma want_at q i a : elems q !! i = Some a -> want q (head q + i) = Live (value a).
Proof.
  intros H. unfold want. replace (head q <=? head q + i)%nat with true by lia. replace (head q + i - head q)%nat with i by lia.
  rewrite H. reflexivity.
Qed.
Lemma want_raw q n : (n < head q \/ head q + len q <= n)%nat -> want q n = Raw.
Proof.
  intros H. unfold want. destruct (Nat.leb_spec (head q) n); [|reflexivity].
  rewrite lookup_ge_None_2; [reflexivity|]. unfold len in H. lia.
Qed.

(** *** Growth *)
Definition untouched o m m' : Prop := forall b, (b < nextb m)%nat -> list.head o <> Some b -> blocks m' !! b = blocks m !! b.
Lemma untouched_refl o m : untouched o m m.
Proof. intros b _ _. reflexivity. Qed.

(** The new array [a] and block [S a] are there; the old array [arr] goes. *)
Lemma regrow m1 m arr blks f blks' g a : fresh m -> body arr blks f m -> a = nextb m ->
  fr [] m [a; S a] m1 -> blocks m1 !! a = Some (pcell <$> blks') -> blocks m1 !! S a = Some (replicate 16 Raw) ->
  (forall b, In b blks' <-> b = S a \/ In b blks) -> NoDup blks' ->
  (forall k b, blks' !! k = Some b -> b = S a /\ (forall i, (i < 16)%nat -> g (16 * k + i)%nat = Raw) \/
     exists k0, blks !! k0 = Some b /\ forall i, (i < 16)%nat -> g (16 * k + i)%nat = f (16 * k0 + i)%nat) ->
  exists m2, free_ptrs (Ptr arr 0) m1 = Ok m2 /\ body a blks' g m2 /\ fr (arr :: blks) m (a :: blks') m2 /\ untouched (arr :: blks) m m2.
Proof.
  intros Hf Hb -> F1 Ha Hsa Hin Hnd Hg. pose proof Hb as (Hnd0 & Harr & Hblk). pose proof (fr_fresh _ _ _ _ F1) as Hf1.
  assert (Hlt : forall b, In b (arr :: blks) -> (b < nextb m)%nat) by (intros; eapply body_lt; eassumption).
  assert (Harr1 : blocks m1 !! arr = Some (pcell <$> blks)) by (eapply fr_keep; [exact Hf|exact F1|intros []|exact Harr]).
  destruct (free_ptrs_ok m1 arr blks Harr1 Hf1) as (m2 & E2 & F2). exists m2. split; [exact E2|].
  assert (Hna : arr <> nextb m /\ arr <> S (nextb m)) by (pose proof (Hlt arr (or_introl eq_refl)); lia).
  assert (Hk2 : forall b cs, b <> arr -> blocks m1 !! b = Some cs -> blocks m2 !! b = Some cs).
  { intros b cs Hne H. eapply fr_keep; [exact Hf1|exact F2| |exact H]. intros [X|[]]. congruence. }
  apply NoDup_cons in Hnd0 as [Hna0 Hnd0].
  split; [|split].
  - split; [|split].
    + apply NoDup_cons. split; [|exact Hnd]. intros X. apply elem_of_list_In, Hin in X as [X|X]; [lia|].
      pose proof (Hlt _ (or_intror X)). lia.
    + apply Hk2; [lia|exact Ha].
    + intros k b Hk. destruct (Hg _ _ Hk) as [[-> Hr]|(k0 & Hk0 & Hr)].
      * exists (replicate 16 Raw). split; [apply Hk2; [lia|exact Hsa]|]. split; [apply replicate_length|].
        intros i Hi. rewrite Hr by exact Hi. apply lookup_replicate. split; [reflexivity|exact Hi].
      * destruct (Hblk _ _ Hk0) as (cs & X & Y & Z). exists cs. split.
        { apply Hk2; [intros ->; apply Hna0; eapply elem_of_list_lookup_2, Hk0|].
          eapply fr_keep; [exact Hf|exact F1|intros []|exact X]. }
        split; [exact Y|]. intros i Hi. rewrite Hr by exact Hi. apply Z, Hi.
  - eapply fr_trans.
    + eapply (fr_in (arr :: blks) [] m [nextb m; S (nextb m)]); [exact F1|intros; rewrite in_app_iff; cbn; tauto|reflexivity].
    + eapply (fr_in (nextb m :: blks') [arr] m1 []); [exact F2| |].
      * intros b. rewrite !in_app_iff. cbn [In]. rewrite Hin. intuition congruence.
      * intros b. rewrite app_nil_r. reflexivity.
  - intros b Hb1 Hb2. cbn [list.head] in Hb2. destruct F2 as (_ & F2 & _). rewrite F2.
    + destruct F1 as (_ & F1 & _). apply F1; [intros []|exact Hb1].
    + intros [X|[]]. congruence.
    + destruct F1 as (F1 & _). lia.
Qed.

(** Room for one more at the back. *)
Definition grow_back q : sq A :=
  if Nat.eqb (room q) 0 then {| elems := elems q; room := 1; head := 0 |}
  else if Nat.ltb (head q + Nat.max (len q) 1) (16 * room q) then q
  else {| elems := elems q; room := S (room q); head := head q |}.
Lemma ensure_back_ok d q o m : drep d q o m -> fresh m -> Z.of_nat (room (grow_back q)) < 2 ^ 31 ->
  exists d' o' m', ensure_back esz 1 d m = Ok (d', m') /\ drep d' (grow_back q) o' m' /\ fr o m o' m' /\ untouched o m m'.
Proof.
  intros (H1 & H2 & H3 & H4 & H5 & H6) Hf Hroom. unfold ensure_back, grow_back in *. rewrite H1.
  destruct (Nat.eqb_spec (room q) 0) as [R0|R0].
  - destruct H6 as [(_ & Hd & He & Hh & ->)|(arr & blks & X & _)]; [|lia]. rewrite R0. change (Z.of_nat 0) with 0. cbn [Z.eqb].
    replace (1 <=? 0) with false by reflexivity. change (w64 (1 + 16 - 1) / 16) with 1.
    destruct (alloc_control_ok m 0 0 Hf) as (m1 & E & Ha & Hb & F); [lia|lia|].
    change (1 + 0) with 1. change (alloc_control esz 1 0 1 m = Ok (Ptr (nextb m) 0, m1)) in E.
    rewrite E. cbn [obind]. rewrite Hd. cbn [free_ptrs obind]. eexists _, [nextb m; S (nextb m)], m1. split; [reflexivity|].
    split; [|split; [exact F|]].
    + split; [reflexivity|]. cbn [dsize dfirst dlast dblocks elems room head len]. rewrite H2. unfold len. rewrite He.
      split; [reflexivity|]. split; [reflexivity|]. split; [reflexivity|]. split; [lia|]. right. exists (nextb m), [S (nextb m)].
      split; [cbn; lia|]. split; [reflexivity|]. split; [reflexivity|]. split; [reflexivity|]. split; [|split].
      * constructor; [|constructor; [intros X; inversion X|constructor]]. rewrite elem_of_list_singleton. lia.
      * rewrite Ha. reflexivity.
      * intros k b Hk. destruct k; [|discriminate]. injection Hk as <-. exists (replicate 16 Raw). split; [exact Hb|].
        split; [reflexivity|]. intros i Hi. rewrite want_raw by (cbn; lia). apply lookup_replicate. auto.
    + intros b Hlt _. destruct F as (_ & F & _). apply F; [intros []|exact Hlt].
  - destruct H6 as [(X & _)|(arr & blks & Hle & Hd & -> & Hbl & Hb)]; [lia|].
    replace (Z.of_nat (room q) =? 0) with false by lia. rewrite H4, w64_id by lia.
    destruct (Nat.ltb_spec (head q + Nat.max (len q) 1) (16 * room q)) as [Hlt|Hge].
    + replace (1 <=? _) with true by lia. exists d, (arr :: blks), m. split; [reflexivity|].
      split; [|split; [apply fr_refl, Hf|apply untouched_refl]].
      split; [exact H1|]. split; [exact H2|]. split; [exact H3|]. split; [exact H4|]. split; [exact H5|]. right. exists arr, blks. auto.
    + replace (1 <=? _) with false by lia. change (w64 (1 + 16 - 1) / 16) with 1. cbn [room] in Hroom.
      destruct (alloc_control_ok m (room q) (room q) Hf) as (m1 & E & Ha & Hs & F1); [lia|lia|].
      replace (1 + Z.of_nat (room q)) with (Z.of_nat (room q) + 1) in * by lia. rewrite E. cbn [obind].
      rewrite Nat.sub_diag in Ha. cbn [replicate] in Ha. rewrite Nat2Z.id, Hd.
      assert (Hlt : forall b, In b (arr :: blks) -> (b < nextb m)%nat) by (intros; eapply body_lt; eassumption).
      destruct (copy_ptrs_ok blks [] m1 (nextb m) arr [pcell (S (nextb m))] 0) as (m2 & E2 & Ha2 & F2).
      * rewrite Ha, Hbl. reflexivity.
      * eapply fr_keep; [exact Hf|exact F1|intros []|apply Hb].
      * pose proof (Hlt arr (or_introl eq_refl)). lia.
      * eapply fr_fresh, F1.
      * reflexivity.
      * cbn [app]. lia.
      * rewrite Hbl in E2. rewrite E2. cbn [obind].
        destruct (regrow m2 m arr blks (want q) (blks ++ [S (nextb m)]) (want q) (nextb m)) as (m3 & E3 & Hb3 & F3 & U3); try assumption.
        -- reflexivity.
        -- eapply fr_trans; [exact F1|]. eapply (fr_in [S (nextb m)] [nextb m] m1 [nextb m]); [exact F2|intros; rewrite in_app_iff; cbn; tauto..].
        -- rewrite Ha2. cbn [app]. rewrite fmap_app. reflexivity.
        -- eapply fr_keep; [eapply fr_fresh, F1|exact F2| |exact Hs]. intros [X|[]]. lia.
        -- intros b. rewrite in_app_iff. cbn [In]. intuition congruence.
        -- apply NoDup_app. destruct Hb as (Hnd & _). apply NoDup_cons in Hnd as [_ Hnd]. split; [exact Hnd|].
           split; [|apply NoDup_singleton]. intros x Hx. rewrite elem_of_list_singleton. apply elem_of_list_In in Hx.
           pose proof (Hlt x (or_intror Hx)). lia.
        -- intros k b Hk. apply lookup_app_Some in Hk as [Hk|[Hk1 Hk]].
           ++ right. exists k. auto.
           ++ left. destruct (k - length blks)%nat eqn:Ek; [|discriminate]. injection Hk as <-. split; [reflexivity|].
              intros i Hi. apply want_raw. lia.
        -- rewrite E3. cbn [obind]. eexists _, _, m3. split; [reflexivity|]. split; [|split; [exact F3|exact U3]].
           split; [cbn; lia|]. cbn [dsize dfirst dlast dblocks elems room head len]. split; [exact H2|]. split; [exact H3|].
           split; [reflexivity|]. split; [lia|]. right. exists (nextb m), (blks ++ [S (nextb m)]).
           split; [cbn [room head elems]; unfold len in *; cbn [elems]; lia|]. split; [reflexivity|]. split; [reflexivity|].
           split; [rewrite app_length; cbn [length room]; lia|]. eapply body_ext; [exact Hb3|]. intros n _. reflexivity.
Qed.

(** Room for one more at the front. *)
Definition grow_front q : sq A :=
  if Nat.ltb 0 (head q) then q
  else {| elems := elems q; room := S (room q); head := match room q with 0%nat => 15 | _ => 16 end |}.
Lemma ensure_front_ok d q o m : drep d q o m -> fresh m -> (0 < head q \/ room q <= 1)%nat ->
  exists d' o' m', ensure_front esz 1 d m = Ok (d', m') /\ drep d' (grow_front q) o' m' /\ fr o m o' m' /\ untouched o m m'.
Proof.
  intros Hd0 Hf Hpre. pose proof Hd0 as (H1 & H2 & H3 & H4 & H5 & H6). unfold ensure_front, grow_front in *. rewrite H3.
  destruct (Nat.ltb_spec 0 (head q)) as [Hpos|Hz].
  - replace (1 <=? _) with true by lia. exists d, o, m. split; [reflexivity|]. split; [exact Hd0|]. split; [apply fr_refl, Hf|apply untouched_refl].
  - replace (1 <=? _) with false by lia. change (w64 (1 + 16 - 1) / 16) with 1. rewrite H1.
    destruct (alloc_control_ok m (room q) 0 Hf) as (m1 & E & Ha & Hs & F1); [lia|lia|].
    change (Z.of_nat 0) with 0 in E. change (0 + 1) with 1 in E. rewrite E. cbn [obind]. rewrite Nat.sub_0_r in Ha. cbn [replicate app] in Ha.
    destruct H6 as [(R0 & Hd & He & Hh & ->)|(arr & blks & Hle & Hd & -> & Hbl & Hb)].
    + rewrite R0 in *. change (Z.of_nat 0) with 0. cbn [Z.eqb obind]. rewrite Hd. cbn [free_ptrs obind].
      eexists _, [nextb m; S (nextb m)], m1. split; [reflexivity|]. split; [|split; [exact F1|]].
      * split; [reflexivity|]. cbn [dsize dfirst dlast dblocks elems room head len]. rewrite H2. unfold len. rewrite He.
        split; [reflexivity|]. split; [reflexivity|]. split; [reflexivity|]. split; [lia|]. right. exists (nextb m), [S (nextb m)].
        split; [cbn; lia|]. split; [reflexivity|]. split; [reflexivity|]. split; [reflexivity|]. split; [|split].
        -- constructor; [|constructor; [intros X; inversion X|constructor]]. rewrite elem_of_list_singleton. lia.
        -- rewrite Ha. reflexivity.
        -- intros k b Hk. destruct k; [|discriminate]. injection Hk as <-. exists (replicate 16 Raw). split; [exact Hs|].
           split; [reflexivity|]. intros i Hi. rewrite want_raw by (cbn; lia). apply lookup_replicate. auto.
      * intros b Hlt _. destruct F1 as (_ & F & _). apply F; [intros []|exact Hlt].
    + assert (R1 : room q = 1%nat) by lia. rewrite R1 in *. cbn [Z.of_nat]. change (Z.of_nat 1 =? 0) with false. cbn iota.
      destruct blks as [|b0 [|]]; try discriminate Hbl. rewrite Hd. change (Z.to_nat (Z.of_nat 1)) with 1%nat. cbn [copy_ptrs padd obind].
      assert (Hlt : forall b, In b [arr; b0] -> (b < nextb m)%nat) by (intros; eapply body_lt; eassumption).
      pose proof (Hlt arr (or_introl eq_refl)) as La. pose proof (Hlt b0 (or_intror (or_introl eq_refl))) as Lb.
      assert (Harr1 : blocks m1 !! arr = Some [pcell b0]) by (eapply fr_keep; [exact Hf|exact F1|intros []|apply Hb]).
      unfold load_ptr. change (0 + 0) with (Z.of_nat 0). rewrite (load_at m1 arr 0 _ _ Harr1 eq_refl). cbn [obind].
      destruct (store_raw m1 (nextb m) 1 [pcell (S (nextb m))] [] b0) as (m2 & E2 & Ha2 & F2); [exact Ha|reflexivity|].
      change (0 + (0 + Z.of_nat 1)) with (Z.of_nat 1). rewrite E2. cbn [obind]. change (0 =? 2 ^ 31 - 1) with false. cbn iota. cbn [obind].
      specialize (F2 (fr_fresh _ _ _ _ F1)).
      destruct (regrow m2 m arr [b0] (want q) [S (nextb m); b0] (fun n => if (n <? 16)%nat then Raw else want q (n - 16)) (nextb m))
        as (m3 & E3 & Hb3 & F3 & U3); try assumption.
      * reflexivity.
      * eapply fr_trans; [exact F1|]. eapply (fr_in [S (nextb m)] [nextb m] m1 [nextb m]); [exact F2|intros; rewrite in_app_iff; cbn; tauto..].
      * eapply fr_keep; [eapply fr_fresh, F1|exact F2| |exact Hs]. intros [X|[]]. lia.
      * intros b. cbn [In]. intuition congruence.
      * constructor; [rewrite elem_of_list_singleton; lia|apply NoDup_singleton].
      * intros k b Hk. destruct k as [|[|]]; [|injection Hk as <-|discriminate].
        -- injection Hk as <-. left. split; [reflexivity|]. intros i Hi. replace (_ <? 16)%nat with true by lia. reflexivity.
        -- right. exists 0%nat. split; [reflexivity|]. intros i Hi. replace (_ <? 16)%nat with false by lia. f_equal. lia.
      * rewrite E3. cbn [obind]. eexists _, _, m3. split; [reflexivity|]. split; [|split; [exact F3|exact U3]].
        split; [reflexivity|]. cbn [dsize dfirst dlast dblocks elems room head len]. split; [exact H2|].
        split; [rewrite w64_id; lia|]. split; [rewrite H4, w64_id by lia; unfold len; cbn [elems]; lia|]. split; [lia|]. right.
        exists (nextb m), [S (nextb m); b0]. split; [unfold len in *; cbn [elems]; lia|]. split; [reflexivity|]. split; [reflexivity|].
        split; [reflexivity|]. eapply body_ext; [exact Hb3|]. intros n Hn. cbn beta. unfold want. cbn [head elems].
        destruct (Nat.ltb_spec n 16); destruct (Nat.leb_spec 16 n); try lia; [reflexivity|].
        replace (head q) with 0%nat by lia. cbn [Nat.leb]. rewrite Nat.sub_0_r. reflexivity.
Qed.
(** With two blocks or more the copy loop writes behind the new array. *)
Lemma ensure_front_bad d q o m : drep d q o m -> fresh m -> head q = 0%nat -> (2 <= room q)%nat -> ensure_front esz 1 d m = UB.
Proof.
  intros Hd0 Hf Hh Hr. pose proof Hd0 as (H1 & H2 & H3 & H4 & H5 & H6). unfold ensure_front. rewrite H3, Hh.
  change (1 <=? Z.of_nat 0) with false. cbn iota. change (w64 (1 + 16 - 1) / 16) with 1. rewrite H1.
  destruct (alloc_control_ok m (room q) 0 Hf) as (m1 & E & Ha & Hs & F1); [lia|lia|].
  change (Z.of_nat 0) with 0 in E. change (0 + 1) with 1 in E. rewrite E. cbn [obind]. rewrite Nat.sub_0_r in Ha. cbn [replicate app] in Ha.
  destruct H6 as [(R0 & _)|(arr & blks & Hle & Hd & -> & Hbl & Hb)]; [lia|]. replace (Z.of_nat (room q) =? 0) with false by lia.
  rewrite Hd, Nat2Z.id. destruct blks as [|b0 [|b1 blks]]; cbn [length] in Hbl; try lia. rewrite <- Hbl. cbn [copy_ptrs padd obind].
  assert (Hlt : forall b, In b (arr :: b0 :: b1 :: blks) -> (b < nextb m)%nat) by (intros; eapply body_lt; eassumption).
  pose proof (Hlt arr (or_introl eq_refl)) as La.
  assert (Harr1 : blocks m1 !! arr = Some (pcell <$> b0 :: b1 :: blks)) by (eapply fr_keep; [exact Hf|exact F1|intros []|apply Hb]).
  unfold load_ptr at 1. change (0 + 0) with (Z.of_nat 0). rewrite (load_at m1 arr 0 _ _ Harr1 eq_refl). cbn [obind].
  destruct (store_raw m1 (nextb m) (S (length (b1 :: blks))) (pcell (S (nextb m)) :: replicate (length (b1 :: blks)) Raw) [] b0) as (m2 & E2 & Ha2 & F2).
  { rewrite Ha, <- Hbl. f_equal. cbn [app]. f_equal. rewrite <- replicate_S_end. reflexivity. }
  { cbn [length]. rewrite replicate_length. reflexivity. }
  specialize (F2 (fr_fresh _ _ _ _ F1)). cbn [length] in *.
  replace (0 + (0 + Z.of_nat (S (S (length blks))))) with (Z.of_nat (S (S (length blks)))) by lia. rewrite E2. cbn [obind].
  change (0 =? 2 ^ 31 - 1) with false. cbn iota.
  assert (Harr2 : blocks m2 !! arr = Some (pcell <$> b0 :: b1 :: blks)).
  { eapply fr_keep; [eapply fr_fresh, F1|exact F2| |exact Harr1]. intros [X|[]]. lia. }
  unfold load_ptr at 1. change (0 + (0 + 1)) with (Z.of_nat 1). rewrite (load_at m2 arr 1 _ _ Harr2 eq_refl). cbn [obind].
  unfold store_ptr at 1. unfold slot at 1. rewrite Ha2. cbn [of_option obind].
  replace (0 <=? _) with true by lia. rewrite lookup_ge_None_2; [reflexivity|].
  rewrite app_length. cbn [length]. rewrite replicate_length. lia.
Qed.
End proofs.
