(** Programs that go on with the iterator of a refused insertion. *)
From stdpp Require Import gmap list sorting.
From Coq Require Import ZArith Lia ZifyBool ZifyNat ZifyN.
From Verif Require Import Base RbModel RbPure RbHeap RbInsert RbErase RbUnlink RbOps RbSearch RbAdd RbDel RbBalance RbSpec RbRun RbHist RbThms RbThms2
  RbIterModel RbIterSpec RbIter RbRefusedSpec.
Local Open Scope outcome_scope.

Section refused.
Context {A : Type} (lt : A -> A -> bool) (WO : weak_order lt).
Notation tr := (tr A).
Notation heap := (heap A).
Notation seq := (list (nat * A)).
Implicit Types (s : heap) (t : tr) (T : tree) (w : world A) (l : seq).
Notation same := (same lt).
Notation agree := (agree lt).
Notation env := (gmap nat loc).

Lemma answer_at late v l i x a : l !! i = Some (x, a) -> same v a = true -> strict lt l.*2 ->
  answer lt late v l = if late then fst <$> l !! S i else Some x.
Proof.
  revert i. induction l as [|[y b] l IH]; intros [|i] Hx Hv U; try done; cbn in Hx.
  - injection Hx as -> ->. cbn [answer snd fst]. rewrite Hv. destruct late; [|done]. cbn. by destruct l.
  - cbn [answer snd]. replace (same v b) with false; [apply IH; try done; by inversion U|].
    symmetry. apply not_true_iff_false. intros Hb. cbn in U. inversion U as [|? ? _ F]; subst. rewrite Forall_forall in F.
    assert (lt b a = true) as X.
    { apply F, elem_of_list_fmap. exists (x, a). split; [done|]. by eapply elem_of_list_lookup_2. }
    clear IH F U. unfold RbSpec.same in *. apply andb_true_iff in Hv as [Hv1 Hv2], Hb as [Hb1 Hb2]. apply negb_true_iff in Hv1, Hv2, Hb1, Hb2.
    assert (same v b = true) as Hb by (unfold RbSpec.same; by rewrite Hb1, Hb2).
    pose proof (same_lt_l lt (swo_of lt WO) v b a Hb) as Y. congruence.
Qed.
Lemma istep2_ok fuel (u : bool) c w e T s t : agree u w e T s t -> length (elts w) < fuel ->
  exists late, forall w', sstep2 lt u late c w = Some w' ->
  (exists e' T' s' t', istep lt fuel u c (e, T, s) = Ok (e', T', s') /\ agree u w' e' T' s' t' /\ (good t -> ifits lt c w -> good t')) \/
  (istep lt fuel u c (e, T, s) = Fuel /\ is_iadd c = false /\ ~ good t).
Proof.
  intros AG Hf. assert ((exists v j, c = IAdd v j /\ u && existsb (same v) (elts w).*2 = true) \/ forall late, sstep2 lt u late c w = sstep lt u c w) as [(v & j & -> & Ex)|Same].
  { destruct c as [v j|i j|i k|k| |j|j|k j|k j|k j|i|i]; try (right; intros ?; reflexivity).
    destruct (u && existsb (same v) (elts w).*2) eqn:Ex; [left; eauto|right]. intros late. cbn [sstep2]. by rewrite Ex. }
  - pose proof Ex as Ex'. apply andb_true_iff in Ex' as [-> Ex1]. pose proof AG as [I E B O U M]. specialize (U eq_refl). rewrite <- E in Hf, Ex1.
    apply existsb_exists in Ex1 as (a & Ha & Hv). apply elem_of_list_In, elem_of_list_fmap in Ha as ([x a'] & -> & Ha). cbn [snd] in Hv. rename a' into a.
    apply elem_of_list_lookup in Ha as [i Hi].
    destruct (dup_inv lt WO T s t fuel v i x a I U Hf Hi Hv) as (it & s' & r & E1 & C1 & R1 & Eit).
    pose proof (unique_made lt T s t v fuel _ _ _ _ I Hf E1) as HM.
    pose proof (add_unique lt (swo_of lt WO) T s t v fuel I Hf) as Y.
    replace (existsb (same v) (elems t).*2) with true in Y by (symmetry; apply existsb_exists; exists a; split; [apply elem_of_list_In, elem_of_list_fmap; exists (x, a); split; [done|by eapply elem_of_list_lookup_2]|done]).
    destruct Y as [E2 I2]. rewrite E1 in E2. injection E2 as _ Es.
    exists (match r with Some _ => true | None => false end). intros w' X. left. cbn [sstep2] in X. rewrite Ex in X. injection X as <-.
    cbn [istep]. rewrite E1. cbn [obind]. eexists _, _, _, t. split; [reflexivity|]. split; [|auto].
    split; cbn [elts marks born]; try done.
    + rewrite Es. exact I2.
    + congruence.
    + intros k m. destruct (decide (j = k)) as [->|N].
      * rewrite !lookup_insert. intros [= <-]. f_equal. rewrite <- E, (answer_at _ v (elems t) i x a Hi Hv U), Eit.
        destruct r; [|done]. by destruct (elems t !! S i) as [[y b]|].
      * rewrite !lookup_insert_ne by done. apply M.
  - exists false. intros w' X. rewrite Same in X. exact (istep_ok lt WO fuel u c w w' e T s t AG X Hf).
Qed.
Lemma sstep2_len u late c w w' : sstep2 lt u late c w = Some w' -> length (elts w') <= length (elts w) + (if is_iadd c then 1 else 0).
Proof.
  intros X. destruct c as [v j|i j|i k|k| |j|j|k j|k j|k j|i|i]; cbn [sstep2] in X; try exact (sstep_len lt u _ w w' X).
  destruct (u && _) eqn:Ex; [|exact (sstep_len lt u _ w w' X)]. injection X as <-. cbn. lia.
Qed.
Lemma isteps2_ok fuel (u : bool) cs : forall w e T s t, agree u w e T s t -> length (elts w) + iadds cs < fuel ->
  exists ls, forall n w', srun2 lt u ls (take n cs) w = Some w' ->
  (exists e' T' s' t', isteps lt fuel u (take n cs) (e, T, s) = Ok (e', T', s') /\ agree u w' e' T' s' t' /\
     length (elts w') < fuel /\ (good t -> iappending2 lt u ls (take n cs) w -> good t')) \/
  (isteps lt fuel u (take n cs) (e, T, s) = Fuel /\ forallb is_iadd (take n cs) = false /\ ~ (good t /\ iappending2 lt u ls (take n cs) w)).
Proof.
  induction cs as [|c cs IH]; intros w e T s t AG Hf.
  - exists []. intros n w'. rewrite take_nil. cbn. intros [= <-]. left. exists e, T, s, t. split; [done|]. split; [done|]. cbn in Hf. split; [lia|auto].
  - rewrite iadds_cons in Hf. destruct (istep2_ok fuel u c w e T s t AG ltac:(lia)) as [late HS].
    assert (forall P : Prop, (match c with IAdd v _ => forall p, In p (elts w) -> lt v (snd p) = false | _ => True end) -> (ifits lt c w -> P) -> P) as FT.
    { intros P Y Z. apply Z. by destruct c. }
    destruct (sstep2 lt u late c w) as [w1|] eqn:E1; cycle 1.
    { exists [late]. intros [|n] w'; cbn [take srun2 next_late].
      - intros [= <-]. left. exists e, T, s, t. split; [done|]. split; [done|]. split; [lia|auto].
      - rewrite E1. done. }
    pose proof (sstep2_len u late c w w1 E1) as HL.
    destruct (HS w1 eq_refl) as [(e1 & T1 & s1 & t1 & E2 & A1 & G1)|(E2 & Z & G1)].
    + destruct (IH w1 e1 T1 s1 t1 A1 ltac:(lia)) as [ls H]. exists (late :: ls). intros [|n] w'; cbn [take srun2 next_late tail isteps iappending2 forallb].
      * intros [= <-]. left. exists e, T, s, t. split; [done|]. split; [done|]. split; [lia|auto].
      * rewrite E1, E2. cbn [mbind option_bind obind]. intros X. destruct (H n w' X) as [(e2 & T2 & s2 & t2 & E3 & A2 & L2 & G2)|(E3 & Z & G2)]; rewrite E3.
        -- left. exists e2, T2, s2, t2. split; [done|]. split; [done|]. split; [done|]. intros G [P1 P2]. apply G2; [|done]. apply (FT _ P1). auto.
        -- right. split; [done|]. split; [rewrite Z; apply andb_false_r|]. intros (G & P1 & P2). apply G2. split; [|done]. apply (FT _ P1). auto.
    + exists [late]. intros [|n] w'; cbn [take srun2 next_late tail isteps iappending2 forallb].
      * intros [= <-]. left. exists e, T, s, t. split; [done|]. split; [done|]. split; [lia|auto].
      * intros _. right. rewrite E2, Z. split; [done|]. split; [done|]. tauto.
Qed.
Theorem iter_refused fuel (u : bool) cs : iadds cs < fuel -> exists ls, forall n w, srun2 lt u ls (take n cs) world0 = Some w ->
  (exists e T s, irun lt fuel u (take n cs) = Ok (e, T, s) /\
     forward fuel (hd T) s = Ok (elts w) /\ backward fuel (hd T) s = Ok (rev (elts w)) /\ ct T = Z.of_nat (length (elts w)) /\
     (forall i, marks w !! i = Some None -> e !! i = Some (hd T)) /\
     (forall i k v, marks w !! i = Some (Some k) -> In (k, v) (elts w) -> e !! i = Some k /\ k <> hd T /\ key k s = Ok v)) \/
  (irun lt fuel u (take n cs) = Fuel /\ forallb is_iadd (take n cs) = false /\ ~ iappending2 lt u ls (take n cs) world0).
Proof.
  intros Hf. destruct (irun_new lt) as (T0 & s0 & E0 & A0). destruct (isteps2_ok fuel u cs _ _ _ _ _ (A0 u) ltac:(cbn; lia)) as [ls H].
  exists ls. intros n w X. unfold irun. rewrite E0. cbn [obind].
  destruct (H n w X) as [(e & T & s & t & E1 & AG & HL & _)|(E1 & Z & G)]; rewrite E1; [left|right].
  - destruct AG as [I E B O U M]. pose proof (i_hold _ _ _ _ I) as Q. rewrite <- E in HL. exists e, T, s. split; [done|].
    rewrite (forward_ok (hd T) fuel s t Q HL), (backward_ok (hd T) fuel s t Q HL), <- E. split; [done|]. split; [done|]. split; [apply (i_ct _ _ _ _ I)|].
    split; [intros i Hi; by rewrite (M i _ Hi)|].
    intros i k v Hi Hk. apply elem_of_list_In in Hk. split; [by rewrite (M i _ Hi)|]. split; [|by apply (hold_key (hd T) s t)].
    intros ->. apply hold_nodup, NoDup_cons in Q as [Q _]. apply Q. apply elem_of_list_fmap. by exists (hd T, v).
  - split; [done|]. split; [done|]. intros P. apply G. split; [apply good_E|done].
Qed.
End refused.
