(** Each deque operation has the effect of its counterpart on sequences. *)
From stdpp Require Import gmap list.
From Coq Require Import ZArith Lia ZifyBool ZifyNat.
From Verif Require Import Base ObjModel ObjSpec ObjProofs DequeModel DequeSpec DequeProofs.
Local Open Scope Z_scope.
Local Open Scope outcome_scope.
Ltac Zify.zify_post_hook ::= Z.div_mod_to_equations.

Section ops.
Context {A : Type} (esz : Z) (Hblock : 16 * esz < 2 ^ 63).
Notation val := (A + nat)%type.
Notation mem := (mem val).
Notation cell := (cell val).
Implicit Types (m : mem) (d : deq) (q : sq A) (o : list nat).

Definition post (o : list nat) m (r : outcome (deq * mem)) q : Prop :=
  exists d' o' m', r = Ok (d', m') /\ drep d' q o' m' /\ fr o m o' m'.

(** An argument that gives [x] as long as the blocks are in place. *)
Definition gives (a : arg val) (x : A) o m : Prop := forall m1, untouched o m m1 -> read_arg a m1 = Ok (value x, m1).
Lemma gives_val x o m : gives (AVal (inl x)) x o m.
Proof. intros m1 _. reflexivity. Qed.

Lemma emplace_back_ok a x d q o m q' : drep d q o m -> fresh m -> gives a x o m -> spush_back x q = Some q' ->
  post o m (emplace_back esz a d m) q'.
Proof.
  intros Hd Hf Ha Hq. unfold emplace_back.
  assert (Hroom : room q' = room (grow_back q) /\ head q' = head (grow_back q) /\ elems q' = elems q ++ [x] /\
    Z.of_nat (room (grow_back q)) < 2 ^ 31).
  { pose proof Hd as (_ & _ & _ & _ & X & _).
    unfold spush_back, grow_back in *. destruct (Nat.eqb (room q) 0); [injection Hq as <-; cbn; repeat split; lia|].
    destruct (Nat.ltb _ _); [injection Hq as <-; auto|]. destruct (Z.ltb_spec (Z.of_nat (room q) + 1) (2 ^ 31)) as [Y|Y]; [|discriminate].
    injection Hq as <-. cbn [room head elems]. repeat split. lia. }
  destruct Hroom as (Hr1 & Hr2 & Hr3 & Hr4).
  destruct (ensure_back_ok esz Hblock _ _ _ _ Hd Hf Hr4) as (d1 & o1 & m1 & E & Hd1 & F1 & U1). rewrite E. cbn [obind].
  set (g := grow_back q) in *. assert (Hel : elems g = elems q).
  { unfold g, grow_back. destruct (Nat.eqb _ _); [reflexivity|]. destruct (Nat.ltb _ _); reflexivity. }
  pose proof Hd1 as (H1 & H2 & H3 & H4 & H5 & H6).
  assert (Hspace : (head g + len g < 16 * room g)%nat /\ (head g + 1 <= 16 * room g)%nat).
  { destruct Hd as (_ & _ & _ & _ & _ & Hd). unfold len in Hd. unfold g, grow_back, len. destruct (Nat.eqb_spec (room q) 0) as [R|R]; cbn [room head elems].
    - destruct Hd as [(_ & _ & -> & _)|(? & ? & X & _)]; [cbn; lia|lia].
    - destruct (Nat.ltb_spec (head q + Nat.max (length (elems q)) 1) (16 * room q)) as [Y|Y]; cbn [room head elems]; [lia|].
      destruct Hd as [(X & _)|(? & ? & X & _)]; lia. }
  destruct H6 as [(X & _)|(arr & blks & Hle & Hb & -> & Hbl & Hbody)]; [lia|].
  set (d2 := {| dblocks := dblocks d1; dbs := _; dsize := _; dfirst := _; dlast := _ |}).
  assert (Hlast : dlast d2 = Z.of_nat (head g + len g)).
  { cbn [d2 dlast]. rewrite H2, H4. destruct (Z.eqb_spec (Z.of_nat (len g)) 0) as [Z0|Z0]; [lia|]. rewrite w64_id; lia. }
  destruct (body_ctor arr blks (want g) m1 d2 (head g + len g) (value x)) as (p & m2 & E1 & E2 & Hbody2 & F2).
  - eapply fr_fresh, F1.
  - exact Hbody.
  - exact Hb.
  - lia.
  - apply want_raw. lia.
  - rewrite Hlast, E1. cbn [obind]. rewrite (Ha m1 U1). cbn [obind]. rewrite E2. cbn [obind].
    eexists d2, (arr :: blks), m2. split; [reflexivity|]. split; [|eapply fr_trans; eassumption].
    assert (Hlen : len q' = S (len g)) by (unfold len; rewrite Hr3, Hel, app_length; cbn; lia).
    split; [cbn; congruence|]. split; [cbn [d2 dsize]; rewrite H2, Hlen, w64_id; lia|]. split; [cbn [d2 dfirst]; rewrite H3; congruence|].
    split; [rewrite Hlast, Hlen, Hr2; lia|]. split; [rewrite Hr1; exact Hr4|]. right. exists arr, blks.
    split; [rewrite Hlen, Hr1, Hr2; lia|]. split; [exact Hb|]. split; [reflexivity|]. split; [congruence|].
    eapply body_ext; [exact Hbody2|]. intros n Hn. cbn beta. unfold want. rewrite Hr2, Hr3, Hel.
    destruct (Nat.eqb_spec n (head g + len g)) as [->|Hne].
    + replace (head g <=? head g + len g)%nat with true by lia. rewrite lookup_app_r by (unfold len; rewrite Hel; lia).
      replace (head g + len g - head g - length (elems q))%nat with 0%nat by (unfold len; rewrite Hel; lia). reflexivity.
    + destruct (Nat.leb_spec (head g) n); [|reflexivity]. unfold len in Hne. rewrite Hel in Hne.
      destruct (Nat.lt_ge_cases (n - head g) (length (elems q))).
      * rewrite lookup_app_l by lia. reflexivity.
      * rewrite (lookup_ge_None_2 (elems q)) by lia. rewrite lookup_ge_None_2; [reflexivity|]. rewrite app_length. cbn. lia.
Qed.

Lemma emplace_front_ok a x d q o m q' : drep d q o m -> fresh m -> gives a x o m -> spush_front x q = Some q' ->
  post o m (emplace_front esz a d m) q'.
Proof.
  intros Hd Hf Ha Hq. unfold emplace_front.
  assert (Hpre : (0 < head q \/ room q <= 1)%nat).
  { unfold spush_front in Hq. destruct (Nat.ltb_spec 0 (head q)); [auto|]. destruct (room q) as [|[|]]; [lia|lia|discriminate]. }
  destruct (ensure_front_ok esz Hblock _ _ _ _ Hd Hf Hpre) as (d1 & o1 & m1 & E & Hd1 & F1 & U1). rewrite E. cbn [obind].
  set (g := grow_front q) in *.
  assert (Hel : elems g = elems q) by (unfold g, grow_front; destruct (Nat.ltb _ _); reflexivity).
  assert (Hg : (0 < head g)%nat) by (unfold g, grow_front; destruct (Nat.ltb_spec 0 (head q)); [assumption|cbn [head]; destruct (room q); lia]).
  assert (Hq' : elems q' = x :: elems g /\ room q' = room g /\ head q' = if Nat.eqb (len g) 0 then head g else (head g - 1)%nat).
  { rewrite Hel. clear E Hd1. unfold spush_front, g, grow_front, len in *. clear Hel Hg.
    destruct (Nat.ltb_spec 0 (head q)); [injection Hq as <-; auto|]. unfold len in *. cbn [elems room head].
    destruct (room q) as [|[|]] eqn:Er; [| |discriminate]; injection Hq as <-; cbn [elems room head].
    - split; [reflexivity|]. split; [reflexivity|].
      destruct Hd as (_ & _ & _ & _ & _ & [(_ & _ & -> & _)|(? & ? & Y & _)]); [reflexivity|lia].
    - split; [reflexivity|]. split; [reflexivity|]. destruct (Nat.eqb (length (elems q)) 0); reflexivity. }
  destruct Hq' as (Hr1 & Hr2 & Hr3).
  pose proof Hd1 as (H1 & H2 & H3 & H4 & H5 & H6).
  destruct H6 as [(_ & _ & _ & X & _)|(arr & blks & Hle & Hb & -> & Hbl & Hbody)]; [lia|].
  set (d2 := {| dblocks := dblocks d1; dbs := _; dsize := _; dfirst := _; dlast := _ |}).
  assert (Hfirst : dfirst d2 = Z.of_nat (head q')).
  { cbn [d2 dfirst]. rewrite H2, H3, Hr3. destruct (Z.eqb_spec (Z.of_nat (len g)) 0); destruct (Nat.eqb_spec (len g) 0); try lia.
    rewrite w64_id; lia. }
  destruct (body_ctor arr blks (want g) m1 d2 (head q') (value x)) as (p & m2 & E1 & E2 & Hbody2 & F2).
  - eapply fr_fresh, F1.
  - exact Hbody.
  - exact Hb.
  - rewrite Hr3. destruct (Nat.eqb (len g) 0); lia.
  - apply want_raw. rewrite Hr3. destruct (Nat.eqb_spec (len g) 0); lia.
  - rewrite Hfirst, E1. cbn [obind]. rewrite (Ha m1 U1). cbn [obind]. rewrite E2. cbn [obind].
    eexists d2, (arr :: blks), m2. split; [reflexivity|]. split; [|eapply fr_trans; eassumption].
    assert (Hlen : len q' = S (len g)) by (unfold len; rewrite Hr1; reflexivity).
    split; [cbn; congruence|]. split; [cbn [d2 dsize]; rewrite H2, Hlen, w64_id; lia|]. split; [exact Hfirst|].
    split; [cbn [d2 dlast]; rewrite H4, Hlen, Hr3; destruct (Nat.eqb_spec (len g) 0); lia|]. split; [rewrite Hr2; exact H5|]. right. exists arr, blks.
    split; [rewrite Hlen, Hr2, Hr3; destruct (Nat.eqb_spec (len g) 0); lia|]. split; [exact Hb|]. split; [reflexivity|]. split; [congruence|].
    eapply body_ext; [exact Hbody2|]. intros n Hn. cbn beta. unfold want. rewrite Hr1.
    destruct (Nat.eqb_spec n (head q')) as [->|Hne].
    + replace (head q' <=? head q')%nat with true by lia. rewrite Nat.sub_diag. reflexivity.
    + rewrite Hr3 in *. destruct (Nat.eqb_spec (len g) 0) as [Hz|Hz].
      * destruct (Nat.leb_spec (head g) n); [|reflexivity]. unfold len in Hz. destruct (elems g); [|discriminate].
        rewrite lookup_nil. rewrite lookup_ge_None_2; [reflexivity|]. cbn. lia.
      * destruct (Nat.leb_spec (head g) n), (Nat.leb_spec (head g - 1) n); try lia; try reflexivity.
        replace (n - (head g - 1))%nat with (S (n - head g)) by lia. reflexivity.
Qed.
Lemma emplace_front_bad a d q o m : drep d q o m -> fresh m -> head q = 0%nat -> (2 <= room q)%nat -> emplace_front esz a d m = UB.
Proof.
  intros. unfold emplace_front. erewrite ensure_front_bad; eauto.
Qed.

Lemma pop_front_ok d q o m q' : drep d q o m -> fresh m -> spop_front q = Some q' -> post o m (pop_front d m) q'.
Proof.
  intros (H1 & H2 & H3 & H4 & H5 & H6) Hf Hq. unfold spop_front in Hq. destruct (elems q) as [|x l] eqn:El; [discriminate|]. injection Hq as <-.
  destruct H6 as [(_ & _ & X & _)|(arr & blks & Hle & Hb & -> & Hbl & Hbody)]; [discriminate|].
  assert (Hlen : len q = S (length l)) by (unfold len; rewrite El; reflexivity).
  destruct (body_dtor arr blks (want q) m d (head q) (value x) Hf Hbody Hb) as (p & m1 & E1 & E2 & Hb1 & F1); [lia| |].
  { rewrite <- (Nat.add_0_r (head q)). apply want_at. rewrite El. reflexivity. }
  unfold pop_front. rewrite H3, E1. cbn [obind]. rewrite E2. cbn [obind].
  eexists _, (arr :: blks), m1. split; [reflexivity|]. split; [|exact F1]. unfold decrease, drep. cbn [dblocks dbs dsize dfirst dlast].
  rewrite H1, H2, H4, Hlen. rewrite (w64_id (Z.of_nat (S (length l)) - 1)) by lia. rewrite w64_id by lia.
  unfold keep, len. cbn [elems room head]. split; [reflexivity|]. split; [lia|].
  destruct l as [|y l]; cbn [length] in *.
  - change (Z.of_nat 1 - 1 =? 0) with true. cbn iota. split; [lia|]. split; [lia|]. split; [exact H5|]. right. exists arr, blks.
    split; [lia|]. split; [exact Hb|]. split; [reflexivity|]. split; [exact Hbl|].
    eapply body_ext; [exact Hb1|]. intros n Hn. cbn beta. rewrite (want_raw {| elems := []; room := _; head := _ |}) by (unfold len; cbn [elems length head]; lia).
    destruct (Nat.eqb_spec n (head q)); [reflexivity|]. apply want_raw. lia.
  - replace (Z.of_nat (S (S (length l))) - 1 =? 0) with false by lia. split; [lia|]. split; [lia|]. split; [exact H5|]. right. exists arr, blks.
    split; [cbn [length] in *; lia|]. split; [exact Hb|]. split; [reflexivity|]. split; [exact Hbl|].
    eapply body_ext; [exact Hb1|]. intros n Hn. cbn beta. unfold want. rewrite El. cbn [elems head].
    destruct (Nat.eqb_spec n (head q)) as [->|Hne]; [replace (S (head q) <=? head q)%nat with false by lia; reflexivity|].
    destruct (Nat.leb_spec (head q) n), (Nat.leb_spec (S (head q)) n); try lia; [|reflexivity].
    replace (n - head q)%nat with (S (n - S (head q))) by lia. reflexivity.
Qed.

Lemma pop_back_ok d q o m q' : drep d q o m -> fresh m -> spop_back q = Some q' -> post o m (pop_back d m) q'.
Proof.
  intros (H1 & H2 & H3 & H4 & H5 & H6) Hf Hq. unfold spop_back in Hq.
  destruct (elems q) as [|x0 l0] eqn:El; [discriminate|]. rewrite <- El in Hq. injection Hq as <-.
  destruct H6 as [(_ & _ & X & _)|(arr & blks & Hle & Hb & -> & Hbl & Hbody)]; [congruence|].
  assert (Hlen : (0 < len q)%nat) by (unfold len; rewrite El; cbn; lia). clear El x0 l0.
  destruct (lookup_lt_is_Some_2 (elems q) (len q - 1)) as (x & Hx); [unfold len in *; lia|].
  replace (head q + Nat.max (len q) 1 - 1)%nat with (head q + (len q - 1))%nat in H4 by lia.
  destruct (body_dtor arr blks (want q) m d (head q + (len q - 1)) (value x) Hf Hbody Hb) as (p & m1 & E1 & E2 & Hb1 & F1); [lia|apply want_at, Hx|].
  unfold pop_back. rewrite H4, E1. cbn [obind]. rewrite E2. cbn [obind].
  eexists _, (arr :: blks), m1. split; [reflexivity|]. split; [|exact F1]. unfold decrease, drep. cbn [dblocks dbs dsize dfirst dlast].
  rewrite H1, H2, H3. rewrite (w64_id (Z.of_nat (len q) - 1)) by lia.
  assert (Hlt : length (take (len q - 1) (elems q)) = (len q - 1)%nat) by (rewrite take_length; unfold len in *; lia).
  assert (Hkl : len (keep (take (len q - 1) (elems q)) (room q) (head q)) = (len q - 1)%nat) by exact Hlt.
  rewrite !Hkl. clear Hkl. unfold keep. cbn [elems room head]. split; [reflexivity|]. split; [lia|].
  destruct (decide (len q = 1%nat)) as [Hone|Hmore].
  - replace (Z.of_nat (len q) - 1 =? 0) with true by lia. replace (len q - 1)%nat with 0%nat by lia. change (take 0 (elems q)) with (@nil A). cbn iota. split; [lia|]. split; [lia|].
    split; [exact H5|]. right. exists arr, blks.
    split; [lia|]. split; [exact Hb|]. split; [reflexivity|]. split; [exact Hbl|].
    eapply body_ext; [exact Hb1|]. intros n Hn. cbn beta. rewrite (want_raw {| elems := []; room := _; head := _ |}) by (unfold len; cbn [elems length head]; lia).
    destruct (Nat.eqb_spec n (head q + (len q - 1))); [reflexivity|]. apply want_raw. lia.
  - replace (Z.of_nat (len q) - 1 =? 0) with false by lia.
    destruct (take (len q - 1) (elems q)) as [|y l] eqn:Et; [cbn in Hlt; lia|]. rewrite <- Et in *. clear y l Et.
    split; [lia|]. split; [rewrite w64_id; lia|]. split; [exact H5|]. right. exists arr, blks.
    split; [lia|]. split; [exact Hb|]. split; [reflexivity|]. split; [exact Hbl|].
    eapply body_ext; [exact Hb1|]. intros n Hn. cbn beta. unfold want. cbn [elems head].
    destruct (Nat.eqb_spec n (head q + (len q - 1))) as [->|Hne].
    + destruct (head q <=? _)%nat; [|reflexivity]. rewrite lookup_ge_None_2; [reflexivity|]. rewrite Hlt. lia.
    + destruct (Nat.leb_spec (head q) n); [|reflexivity]. destruct (Nat.lt_ge_cases (n - head q) (len q - 1)).
      * rewrite lookup_take by lia. reflexivity.
      * rewrite (lookup_ge_None_2 (take _ _)) by lia. rewrite lookup_ge_None_2; [reflexivity|]. unfold len in *. lia.
Qed.

(** Destroying all elements. *)
Lemma destroy_iter_ok k : forall arr blks f m d i, fresh m -> body arr blks f m -> dblocks d = Ptr arr 0 -> (i + k <= 16 * length blks)%nat ->
  Z.of_nat (length blks) < 2 ^ 31 -> (forall n, (i <= n < i + k)%nat -> exists v, f n = Live v) ->
  exists m', destroy_iter k (Z.of_nat i) d m = Ok m' /\
    body arr blks (fun n => if (i <=? n)%nat && (n <? i + k)%nat then Raw else f n) m' /\ fr (arr :: blks) m (arr :: blks) m'.
Proof.
  induction k as [|k IH]; intros arr blks f m d i Hf Hb Hd Hle Hlt Hlive; cbn [destroy_iter].
  - exists m. split; [reflexivity|]. split; [|apply fr_refl, Hf]. eapply body_ext; [exact Hb|]. intros n _. cbn beta.
    replace ((i <=? n)%nat && (n <? i + 0)%nat) with false by lia. reflexivity.
  - destruct (Hlive i) as (v & Hv); [lia|].
    destruct (body_dtor arr blks f m d i v Hf Hb Hd) as (p & m1 & E1 & E2 & Hb1 & F1); [lia|exact Hv|].
    rewrite E1. cbn [obind]. rewrite E2. cbn [obind]. rewrite w64_id by lia. replace (Z.of_nat i + 1) with (Z.of_nat (S i)) by lia.
    destruct (IH arr blks _ m1 d (S i) (fr_fresh _ _ _ _ F1) Hb1 Hd) as (m2 & E & Hb2 & F2); [lia|exact Hlt| |].
    + intros n Hn. replace (Nat.eqb n i) with false by lia. apply Hlive. lia.
    + exists m2. split; [exact E|]. split; [|eapply fr_trans; eassumption]. eapply body_ext; [exact Hb2|]. intros n _. cbn beta.
      destruct (Nat.eqb_spec n i) as [->|Hne].
      * replace ((i <=? i)%nat && (i <? i + S k)%nat) with true by lia. destruct (_ && _)%bool; reflexivity.
      * replace ((i <=? n)%nat && (n <? i + S k)%nat) with ((S i <=? n)%nat && (n <? S i + k)%nat) by lia. reflexivity.
Qed.
Lemma steps_ok d q o m : drep d q o m -> steps d = Nat.max (len q) 1.
Proof.
  intros (H1 & H2 & H3 & H4 & H5 & H6). unfold steps, dend, dbegin. rewrite H3, H4.
  assert (head q + Nat.max (len q) 1 <= 16 * room q \/ head q = 0 /\ len q = 0)%nat.
  { unfold len. destruct H6 as [(_ & _ & -> & -> & _)|(? & ? & X & _)]; [right; auto|left; exact X]. }
  rewrite (w64_id (_ + 1)) by lia. rewrite w64_id by lia. lia.
Qed.
Lemma dclear_ok d q o m : drep d q o m -> fresh m -> post o m (dclear d m) (sclear q).
Proof.
  intros Hd Hf. pose proof Hd as (H1 & H2 & H3 & H4 & H5 & H6). unfold dclear, sclear, dempty. rewrite H2. unfold len.
  destruct (elems q) as [|x0 l0] eqn:El; cbn [length].
  - change (Z.of_nat 0 =? 0) with true. cbn iota. exists d, o, m. split; [reflexivity|]. split; [exact Hd|apply fr_refl, Hf].
  - replace (Z.of_nat (S (length l0)) =? 0) with false by lia. rewrite (steps_ok _ _ _ _ Hd).
    assert (Hlen : len q = S (length l0)) by (unfold len; rewrite El; reflexivity).
    destruct H6 as [(_ & _ & X & _)|(arr & blks & Hle & Hb & -> & Hbl & Hbody)]; [congruence|].
    unfold dbegin. rewrite H3.
    destruct (destroy_iter_ok (Nat.max (len q) 1) arr blks (want q) m d (head q) Hf Hbody Hb) as (m1 & E & Hb1 & F1).
    + lia.
    + lia.
    + intros n Hn. destruct (lookup_lt_is_Some_2 (elems q) (n - head q)) as (a & Ha); [unfold len in *; lia|].
      exists (value a). replace n with (head q + (n - head q))%nat by lia. apply want_at, Ha.
    + rewrite E. cbn [obind]. eexists _, (arr :: blks), m1. split; [reflexivity|]. split; [|exact F1].
      unfold drep, keep, len. cbn [dblocks dbs dsize dfirst dlast elems room head length]. rewrite H1.
      split; [reflexivity|]. split; [reflexivity|]. split; [lia|]. split; [lia|]. split; [exact H5|]. right. exists arr, blks.
      split; [lia|]. split; [exact Hb|]. split; [reflexivity|]. split; [exact Hbl|].
      eapply body_ext; [exact Hb1|]. intros n Hn. cbn beta. rewrite (want_raw {| elems := []; room := _; head := _ |}) by (unfold len; cbn [elems length head]; lia).
      destruct ((head q <=? n)%nat && (n <? head q + Nat.max (len q) 1)%nat) eqn:C; [reflexivity|]. apply want_raw. lia.
Qed.

Lemma free_blocks_ok todo : forall done m arr i, blocks m !! arr = Some (pcell <$> done ++ todo) -> fresh m -> i = Z.of_nat (length done) ->
  Z.of_nat (length (done ++ todo)) < 2 ^ 31 -> NoDup (arr :: todo) ->
  (forall b, In b todo -> exists cs, blocks m !! b = Some cs /\ forallb is_raw cs = true) ->
  exists m', free_blocks (length todo) i (Ptr arr 0) m = Ok m' /\ blocks m' !! arr = Some (pcell <$> done ++ todo) /\ fr todo m [] m'.
Proof.
  induction todo as [|b todo IH]; intros done m arr i Harr Hf -> Hlt Hnd Hraw; cbn [length free_blocks].
  - exists m. split; [reflexivity|]. split; [exact Harr|apply fr_refl, Hf].
  - cbn [padd obind]. rewrite Z.add_0_l. unfold load_ptr.
    erewrite load_at; [|exact Harr|rewrite list_lookup_fmap, lookup_app_r, Nat.sub_diag by lia; reflexivity]. cbn [obind].
    destruct (Hraw b (or_introl eq_refl)) as (cs & Hcs & Hall). unfold free_buf. rewrite Hcs. cbn [of_option obind]. rewrite Hall.
    cbn [Z.eqb andb obind]. rewrite app_length in Hlt. cbn [length] in Hlt. replace (Z.of_nat (length done) =? 2 ^ 31 - 1) with false by lia.
    pose proof (fr_free m b Hf) as F1. set (m1 := {| blocks := _ |}) in *.
    apply NoDup_cons in Hnd as [Hna Hnd]. apply NoDup_cons in Hnd as [Hnb Hnd]. apply not_elem_of_cons in Hna as [Hab Hna].
    destruct (IH (done ++ [b]) m1 arr (Z.of_nat (length done) + 1)) as (m2 & E & H1 & F2).
    + rewrite <- app_assoc. eapply fr_keep; [exact Hf|exact F1| |exact Harr]. intros [X|[]]. congruence.
    + eapply fr_fresh, F1.
    + rewrite app_length. cbn [length]. lia.
    + rewrite !app_length. cbn [length]. lia.
    + apply NoDup_cons. auto.
    + intros b' Hb'. destruct (Hraw b' (or_intror Hb')) as (cs' & X & Y). exists cs'. split; [|exact Y].
      eapply fr_keep; [exact Hf|exact F1| |exact X]. intros [Z|[]]. subst b'. apply Hnb, elem_of_list_In, Hb'.
    + exists m2. split; [exact E|]. rewrite <- app_assoc in H1. split; [exact H1|]. eapply fr_trans; [|exact F2].
      eapply (fr_in todo [b] m []); [exact F1|intros; rewrite in_app_iff; cbn; tauto|intros; rewrite app_nil_r; tauto].
Qed.
Lemma ddestroy_ok d q o m : drep d q o m -> fresh m -> exists m', ddestroy d m = Ok m' /\ fr o m [] m'.
Proof.
  intros Hd Hf. unfold ddestroy. destruct (dclear_ok _ _ _ _ Hd Hf) as (d1 & o1 & m1 & E & Hd1 & F1). rewrite E. cbn [obind].
  pose proof Hd1 as (H1 & H2 & H3 & H4 & H5 & H6). rewrite H1, Nat2Z.id.
  assert (Hemp : elems (sclear q) = []) by (unfold sclear, keep; destruct (elems q) eqn:X; [exact X|reflexivity]).
  destruct H6 as [(X & -> & _ & _ & ->)|(arr & blks & Hle & Hb & -> & Hbl & Hbody)].
  - rewrite X. cbn [free_blocks obind free_ptrs]. eauto.
  - rewrite Hb, <- Hbl. pose proof Hbody as (B1 & B2 & B3).
    destruct (free_blocks_ok blks [] m1 arr 0) as (m2 & E2 & Ha2 & F2).
    + exact B2.
    + eapply fr_fresh, F1.
    + reflexivity.
    + cbn [app]. lia.
    + exact B1.
    + intros b Hin. apply elem_of_list_In, elem_of_list_lookup in Hin as (k & Hk). destruct (B3 _ _ Hk) as (cs & X & Y & Z).
      exists cs. split; [exact X|]. apply forallb_forall. intros c Hc. apply elem_of_list_In, elem_of_list_lookup in Hc as (i & Hi).
      pose proof (lookup_lt_Some _ _ _ Hi) as Hi'. rewrite Z in Hi by lia. injection Hi as <-.
      rewrite want_raw; [reflexivity|]. unfold len. rewrite Hemp. cbn. lia.
    + rewrite E2. cbn [obind]. cbn [app] in Ha2. destruct (free_ptrs_ok esz m2 arr blks Ha2 (fr_fresh _ _ _ _ F2)) as (m3 & E3 & F3).
      exists m3. split; [exact E3|]. eapply fr_trans; [exact F1|]. eapply fr_trans; [|exact F3].
      eapply (fr_in [arr] blks m1 []); [exact F2|intros; rewrite in_app_iff; cbn; tauto|intros; rewrite app_nil_r; tauto].
Qed.

(** Reading. *)
Lemma dget_ok d q o m n : drep d q o m -> (n < len q)%nat -> exists a p, elems q !! n = Some a /\
  obj_ptr d (Z.of_nat (head q + n)) m = Ok p /\ load p m = Ok (value a) /\ (exists b i, p = Ptr b i /\ In b o /\ list.head o <> Some b).
Proof.
  intros (H1 & H2 & H3 & H4 & H5 & H6) Hn. destruct (lookup_lt_is_Some_2 (elems q) n Hn) as (a & Ha).
  destruct H6 as [(_ & _ & X & _)|(arr & blks & Hle & Hb & -> & Hbl & Hbody)]; [rewrite X in Ha; discriminate|].
  destruct (body_pos _ _ _ _ (head q + n) Hbody) as (b & cs & X1 & X2 & X3 & X4 & X5); [lia|].
  exists a, (Ptr b (Z.of_nat ((head q + n) mod 16))). split; [exact Ha|]. split; [eapply body_ptr; eassumption|].
  split; [eapply load_at; [exact X3|]; rewrite X5, (want_at _ _ _ Ha); reflexivity|].
  eexists b, _. split; [reflexivity|]. split; [right; eapply elem_of_list_In, elem_of_list_lookup_2, X1|]. cbn [list.head]. congruence.
Qed.
Lemma iterate_ok k : forall d q o m n, drep d q o m -> (n + k = len q)%nat ->
  iterate k (Z.of_nat (head q + n)) d m = Ok (value <$> drop n (elems q)).
Proof.
  induction k as [|k IH]; intros d q o m n Hd Hn; cbn [iterate].
  - rewrite drop_ge by (unfold len in Hn; lia). reflexivity.
  - destruct (dget_ok _ _ _ _ n Hd) as (a & p & Ha & E1 & E2 & _); [lia|]. unfold dget. rewrite E1. cbn [obind]. rewrite E2. cbn [obind].
    assert (Hb : Z.of_nat (head q + n) + 1 < 2 ^ 64).
    { destruct Hd as (_ & _ & _ & _ & X & [(_ & _ & Y & _)|(? & ? & Y & _)]); [rewrite Y in Ha; discriminate|lia]. }
    rewrite w64_id by lia. replace (Z.of_nat (head q + n) + 1) with (Z.of_nat (head q + S n)) by lia.
    rewrite (IH _ _ _ _ _ Hd) by lia. cbn [obind]. rewrite (drop_S _ _ _ Ha). reflexivity.
Qed.
Lemma shows_ok d q o m : drep d q o m -> shows d m (elems q).
Proof.
  intros Hd. pose proof Hd as (H1 & H2 & H3 & H4 & H5 & H6). split; [exact H2|]. split.
  { unfold dempty. rewrite H2. unfold len. destruct (elems q); cbn; [reflexivity|lia]. }
  split; [|split].
  - intros Hne. assert (0 < len q)%nat by (unfold len; destruct (elems q); [contradiction|cbn; lia]).
    unfold diter. rewrite (steps_ok _ _ _ _ Hd). unfold dbegin. rewrite H3.
    rewrite <- (Nat.add_0_r (head q)). rewrite (iterate_ok _ _ _ _ _ 0 Hd) by lia. reflexivity.
  - intros a Ha. destruct (dget_ok _ _ _ _ 0 Hd) as (a' & p & Ha' & E1 & E2 & _).
    { unfold len. destruct (elems q); [discriminate|cbn; lia]. }
    unfold dfront, dget. rewrite H3. rewrite Nat.add_0_r in E1. rewrite E1. cbn [obind]. rewrite E2.
    destruct (elems q); [discriminate|]. cbn in *. congruence.
  - intros a Ha. assert (0 < len q)%nat by (unfold len; destruct (elems q); [discriminate|cbn; lia]).
    destruct (dget_ok _ _ _ _ (len q - 1) Hd) as (a' & p & Ha' & E1 & E2 & _); [lia|].
    unfold dback, dget. rewrite H4. replace (head q + Nat.max (len q) 1 - 1)%nat with (head q + (len q - 1))%nat by lia.
    rewrite E1. cbn [obind]. rewrite E2. rewrite last_lookup in Ha. replace (pred (length (elems q))) with (len q - 1)%nat in Ha by (unfold len; lia). congruence.
Qed.
(** Any other index. *)
Lemma dget_out d q o m i : drep d q o m -> 0 <= i < 2 ^ 64 -> i < Z.of_nat (head q) \/ Z.of_nat (head q + len q) <= i -> dget i d m = UB.
Proof.
  intros (H1 & H2 & H3 & H4 & H5 & H6) Hi Hout. destruct H6 as [(_ & Hb & _)|(arr & blks & Hle & Hb & -> & Hbl & Hbody)].
  - unfold dget, obj_ptr. rewrite Hb. unfold padd. destruct (i / 16 =? 0); reflexivity.
  - destruct (Z.lt_ge_cases i (16 * Z.of_nat (room q))) as [Hlt|Hge].
    + replace i with (Z.of_nat (Z.to_nat i)) by lia.
      destruct (body_unload arr blks (want q) m d (Z.to_nat i) Hbody Hb) as (p & E1 & E2); [lia|apply want_raw; lia|].
      unfold dget. rewrite E1. cbn [obind]. exact E2.
    + unfold dget, obj_ptr. rewrite Hb. cbn [padd obind]. unfold load_ptr, load, slot. destruct Hbody as (_ & -> & _). cbn [of_option obind].
      replace (0 <=? 0 + i / 16) with true by lia. rewrite lookup_ge_None_2; [reflexivity|]. rewrite fmap_length. lia.
Qed.

(** Copies. *)
Lemma push_all_ok l : forall d q o m q', drep d q o m -> fresh m -> spush_all l q = Some q' -> post o m (push_all esz l d m) q'.
Proof.
  induction l as [|a l IH]; intros d q o m q' Hd Hf Hq; cbn [push_all spush_all] in *.
  - injection Hq as <-. exists d, o, m. split; [reflexivity|]. split; [exact Hd|apply fr_refl, Hf].
  - destruct (spush_back a q) as [q1|] eqn:E; [|discriminate].
    destruct (emplace_back_ok _ _ _ _ _ _ _ Hd Hf (gives_val a o m) E) as (d1 & o1 & m1 & E1 & Hd1 & F1). rewrite E1. cbn [obind].
    destruct (IH _ _ _ _ _ Hd1 (fr_fresh _ _ _ _ F1) Hq) as (d2 & o2 & m2 & E2 & Hd2 & F2).
    exists d2, o2, m2. split; [exact E2|]. split; [exact Hd2|eapply fr_trans; eassumption].
Qed.
Lemma copy_iter_ok k : forall rhs q o m n d p od p', drep rhs q o m -> fresh m -> (n + k = len q)%nat -> drep d p od m ->
  (forall b, In b o -> ~ In b od) -> spush_all (drop n (elems q)) p = Some p' ->
  post od m (copy_iter esz k (Z.of_nat (head q + n)) rhs d m) p'.
Proof.
  induction k as [|k IH]; intros rhs q o m n d p od p' Hr Hf Hn Hd Hdis Hq; cbn [copy_iter].
  - rewrite drop_ge in Hq by (unfold len in Hn; lia). injection Hq as <-. exists d, od, m. split; [reflexivity|]. split; [exact Hd|apply fr_refl, Hf].
  - destruct (dget_ok _ _ _ _ n Hr) as (a & pt & Ha & E1 & E2 & b & i & -> & Hin & Hhd); [lia|]. rewrite E1. cbn [obind].
    rewrite (drop_S _ _ _ Ha) in Hq. cbn [spush_all] in Hq. destruct (spush_back a p) as [p1|] eqn:Ep; [|discriminate].
    destruct (emplace_back_ok (ARef (Ptr b i)) a d p od m p1 Hd Hf) as (d1 & o1 & m1 & E3 & Hd1 & F1); [|exact Ep|].
    + intros m1 Hu. cbn [read_arg]. unfold load, slot in *. rewrite Hu; [rewrite E2; reflexivity|exact (drep_lt _ _ _ _ _ Hf Hr Hin)|].
      intros X. apply (Hdis _ Hin). destruct od; [discriminate|]. injection X as ->. left. reflexivity.
    + rewrite E3. cbn [obind].
      assert (Hb : Z.of_nat (head q + n) + 1 < 2 ^ 64).
      { destruct Hr as (_ & _ & _ & _ & X & [(_ & _ & Y & _)|(? & ? & Y & _)]); [rewrite Y in Ha; discriminate|lia]. }
      rewrite w64_id by lia. replace (Z.of_nat (head q + n) + 1) with (Z.of_nat (head q + S n)) by lia.
      destruct (IH rhs q o m1 (S n) d1 p1 o1 p') as (d2 & o2 & m2 & E4 & Hd2 & F2).
      * eapply drep_keep; eassumption.
      * eapply fr_fresh, F1.
      * lia.
      * exact Hd1.
      * intros b' Hb1 Hb2. destruct F1 as (_ & _ & F3 & _). apply (Hdis _ Hb1), F3; [exact Hb2|]. exact (drep_lt _ _ _ _ _ Hf Hr Hb1).
      * exact Hq.
      * exists d2, o2, m2. split; [exact E4|]. split; [exact Hd2|eapply fr_trans; eassumption].
Qed.
Lemma dcopy_ok d q o m q' : drep d q o m -> fresh m -> scopy q = Some q' -> post [] m (dcopy esz d m) q'.
Proof.
  intros Hd Hf Hq. unfold scopy in Hq. destruct (elems q) as [|a l] eqn:El; [discriminate|]. rewrite <- El in Hq.
  assert (0 < len q)%nat by (unfold len; rewrite El; cbn; lia).
  unfold dcopy. rewrite (steps_ok _ _ _ _ Hd). unfold dbegin. pose proof Hd as (_ & _ & -> & _).
  rewrite <- (Nat.add_0_r (head q)). eapply (copy_iter_ok _ _ _ _ _ 0); [exact Hd|exact Hf|lia|apply drep0|intros b _ []|exact Hq].
Qed.
Lemma dcopy_empty d q o m : drep d q o m -> fresh m -> elems q = [] -> dcopy esz d m = UB.
Proof.
  intros Hd Hf He. unfold dcopy. rewrite (steps_ok _ _ _ _ Hd). unfold len. rewrite He. cbn [length Nat.max copy_iter].
  pose proof Hd as (H1 & H2 & H3 & H4 & H5 & H6). unfold dbegin. rewrite H3.
  destruct H6 as [(_ & Hb & _ & -> & _)|(arr & blks & Hle & Hb & -> & Hbl & Hbody)].
  - unfold obj_ptr. rewrite Hb. reflexivity.
  - destruct (body_pos _ _ _ _ (head q) Hbody) as (b & cs & X1 & X2 & X3 & X4 & X5); [lia|].
    rewrite (body_ptr _ _ _ _ _ _ _ Hbody Hb X1). cbn [obind].
    unfold emplace_back. destruct (ensure_back_ok esz Hblock deq0 sq0 [] m (drep0 m) Hf) as (d1 & o1 & m1 & E & Hd1 & F1 & U1); [cbn; lia|].
    rewrite E. cbn [obind]. pose proof Hd1 as (G1 & G2 & G3 & G4 & G5 & G6).
    destruct G6 as [(X & _)|(arr1 & blks1 & Gle & Gb & -> & Gbl & Gbody)]; [discriminate|].
    set (d2 := {| dblocks := dblocks d1; dbs := _; dsize := _; dfirst := _; dlast := _ |}).
    assert (Hlast : dlast d2 = Z.of_nat 0) by (cbn [d2 dlast]; rewrite G2, G4; reflexivity).
    destruct (body_ctor arr1 blks1 _ m1 d2 0 (Some (inr 0%nat)) (fr_fresh _ _ _ _ F1) Gbody Gb) as (p & m2 & Ep & _); [rewrite Gbl; cbn; lia|apply want_raw; cbn; lia|].
    rewrite Hlast, Ep. cbn [obind]. unfold read_arg.
    erewrite load_raw; [reflexivity| |].
    + rewrite U1; [exact X3| |discriminate]. destruct (Nat.lt_ge_cases b (nextb m)) as [Y|Y]; [exact Y|]. rewrite (Hf _ Y) in X3. discriminate.
    + rewrite X5. f_equal. apply want_raw. unfold len. rewrite He. cbn. lia.
Qed.
Lemma dcopy_empty_iter d q o m : drep d q o m -> elems q = [] -> dbegin d <> dend d /\ diter d m = UB.
Proof.
  intros Hd He. pose proof Hd as (H1 & H2 & H3 & H4 & H5 & H6).
  assert (Hst : steps d = 1%nat) by (rewrite (steps_ok _ _ _ _ Hd); unfold len; rewrite He; reflexivity).
  split.
  - intros X. unfold steps in Hst. rewrite X, Z.sub_diag in Hst. discriminate Hst.
  - unfold diter. rewrite Hst. cbn [iterate]. unfold dbegin. rewrite (dget_out _ _ _ _ _ Hd); [reflexivity| |].
    + rewrite H3. destruct H6 as [(_ & _ & _ & -> & _)|(? & ? & X & _)]; lia.
    + right. rewrite H3. unfold len. rewrite He. cbn. lia.
Qed.
(** Pushing an element of the same deque. *)
Lemma gives_elem d q o m i a : drep d q o m -> fresh m -> nth q i = Some a ->
  exists p, obj_ptr d (dbegin d + i) m = Ok p /\ gives (ARef p) a o m.
Proof.
  intros Hd Hf Hi. unfold nth in Hi. destruct (Z.leb_spec 0 i) as [Hp|]; [|discriminate].
  destruct (dget_ok _ _ _ _ (Z.to_nat i) Hd) as (a' & p & Ha & E1 & E2 & b & j & -> & Hin & Hhd).
  { apply lookup_lt_Some in Hi. exact Hi. }
  exists (Ptr b j). split.
  - unfold dbegin. pose proof Hd as (_ & _ & -> & _). rewrite <- E1. f_equal. lia.
  - intros m1 Hu. cbn [read_arg]. unfold load, slot in *. rewrite Hu; [|eapply drep_lt; eassumption|exact Hhd]. rewrite E2.
    rewrite Hi in Ha. injection Ha as ->. reflexivity.
Qed.
End ops.
