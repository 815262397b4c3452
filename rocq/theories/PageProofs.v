(** Proofs about the page bookkeeping. *)
From stdpp Require Import list.
From Coq Require Import NArith Lia ZifyBool ZifyNat ZifyN.
From Verif Require Import Base E820Model PageModel PageSpec.
Local Open Scope N_scope.
Ltac Zify.zify_post_hook ::= Z.div_mod_to_equations.

Lemma W64_val : W64 = 18446744073709551616. Proof. reflexivity. Qed.
Lemma inc_ok x : x + 1 < W64 -> inc x = x + 1.
Proof. intros H. unfold inc. apply N.mod_small. exact H. Qed.
Lemma dec_ok x : 1 <= x -> x < W64 -> dec x = x - 1.
Proof. intros H1 H2. unfold dec. rewrite W64_val in *. lia. Qed.

(** * Bitmap *)
Lemma bit_set m p b : bit (set_bit m p) b = bit m b || (b =? p).
Proof.
  unfold bit, set_bit. destruct (N.eqb_spec (b / 64) (p / 64)) as [E|E].
  - rewrite N.lor_spec, N.shiftl_1_l, N.pow2_bits_eqb. f_equal. apply eq_true_iff_eq. rewrite !N.eqb_eq. lia.
  - replace (b =? p) with false by lia. rewrite orb_false_r. reflexivity.
Qed.
Lemma bit_clear m p b : bit (clear_bit m p) b = bit m b && negb (b =? p).
Proof.
  unfold bit, clear_bit. destruct (N.eqb_spec (b / 64) (p / 64)) as [E|E].
  - rewrite N.ldiff_spec, N.shiftl_1_l, N.pow2_bits_eqb. f_equal. f_equal. apply eq_true_iff_eq. rewrite !N.eqb_eq. lia.
  - replace (b =? p) with false by lia. rewrite andb_true_r. reflexivity.
Qed.

(** * Sums over pages *)
Lemma zsum_insert f zi ps : forall i p p', ps !! i = Some p -> pg_zone p' = pg_zone p ->
  zsum f zi (<[i := p']> ps) + (if decide (pg_zone p = zi) then f p else 0) =
  zsum f zi ps + (if decide (pg_zone p = zi) then f p' else 0).
Proof.
  induction ps as [|q ps IH]; intros i p p' H E; [discriminate|].
  destruct i as [|i]; cbn in H.
  - injection H as ->. change (<[0%nat := p']> (p :: ps)) with (p' :: ps). cbn [zsum]. rewrite E.
    destruct (decide (pg_zone p = zi)); lia.
  - specialize (IH i p p' H E). change (<[S i := p']> (q :: ps)) with (q :: <[i := p']> ps). cbn [zsum].
    rewrite <-!N.add_assoc, IH. lia.
Qed.
Lemma zsum_ge f ps : forall i p, ps !! i = Some p -> f p <= zsum f (pg_zone p) ps.
Proof.
  induction ps as [|q ps IH]; intros i p H; [discriminate|]. destruct i as [|i]; cbn in H.
  - injection H as ->. cbn [zsum]. rewrite decide_True by reflexivity. lia.
  - specialize (IH i p H). cbn [zsum]. lia.
Qed.
Lemma zsum_bound f zi ps : (forall p, f p <= 1) -> zsum f zi ps <= N.of_nat (length ps).
Proof.
  intros H. induction ps as [|p ps IH]; cbn [zsum length]; [lia|]. specialize (H p).
  destruct (decide (pg_zone p = zi)); lia.
Qed.
Lemma used_bound zi ps : pages_used zi ps <= N.of_nat (length ps).
Proof. apply zsum_bound. intros p. destruct (in_use p); lia. Qed.
Lemma free_bound zi ps : pages_free zi ps <= N.of_nat (length ps).
Proof. apply zsum_bound. intros p. destruct (in_use p); lia. Qed.
Lemma used_free_bound zi ps : pages_used zi ps + pages_free zi ps <= N.of_nat (length ps).
Proof.
  unfold pages_used, pages_free. induction ps as [|p ps IH]; cbn [zsum length]; [lia|].
  destruct (decide (pg_zone p = zi)), (in_use p); lia.
Qed.

(** * One update *)
Lemma put_counts s b i p p' z z' : counts_ok s -> pages s !! i = Some p -> zones s !! pg_zone p = Some z ->
  pg_zone p' = pg_zone p ->
  z_using z' + (if in_use p then 1 else 0) = z_using z + (if in_use p' then 1 else 0) ->
  z_free z' + (if in_use p then 0 else 1) = z_free z + (if in_use p' then 0 else 1) ->
  z_links z' + pg_refs p = z_links z + pg_refs p' ->
  counts_ok (put s b i p' z').
Proof.
  intros C Hp Hz Ez Hu Hf Hl zi z1 H1. unfold put in *. cbn [zones pages] in *. rewrite Ez in H1.
  pose proof (zsum_insert (fun p => if in_use p then 1 else 0) zi _ _ _ _ Hp Ez) as S1.
  pose proof (zsum_insert (fun p => if in_use p then 0 else 1) zi _ _ _ _ Hp Ez) as S2.
  pose proof (zsum_insert pg_refs zi _ _ _ _ Hp Ez) as S3.
  fold (pages_used zi (pages s)) in S1. fold (pages_free zi (pages s)) in S2. fold (pages_refs zi (pages s)) in S3.
  fold (pages_used zi (<[i:=p']> (pages s))) in S1. fold (pages_free zi (<[i:=p']> (pages s))) in S2.
  fold (pages_refs zi (<[i:=p']> (pages s))) in S3.
  destruct (decide (pg_zone p = zi)) as [<-|N].
  - rewrite list_lookup_insert in H1 by (eapply lookup_lt_Some; exact Hz). injection H1 as <-.
    destruct (C _ _ Hz) as (C1 & C2 & C3). lia.
  - rewrite list_lookup_insert_ne in H1 by exact N. destruct (C _ _ H1) as (C1 & C2 & C3). lia.
Qed.
Lemma put_layout s b i p p' z z' : layout_ok s -> pages s !! i = Some p -> zones s !! pg_zone p = Some z ->
  pg_zone p' = pg_zone p -> pg_phy p' = pg_phy p -> layout_ok (put s b i p' z').
Proof.
  intros L Hp Hz Ez Ep j q Hq. unfold put in *. cbn [zones pages] in *. rewrite insert_length.
  apply list_lookup_insert_Some in Hq as [(<- & <- & _)|(_ & Hq)].
  - rewrite Ez, Ep. apply L. exact Hp.
  - apply L. exact Hq.
Qed.
(** A property of all (index, page) pairs. *)
Lemma put_all (P : nat -> page -> Prop) s b i p' z' :
  (forall j q, pages s !! j = Some q -> P j q) -> P i p' -> forall j q, pages (put s b i p' z') !! j = Some q -> P j q.
Proof.
  intros H Hi j q Hq. unfold put in Hq. cbn [pages] in Hq.
  apply list_lookup_insert_Some in Hq as [(<- & <- & _)|(_ & Hq)]; auto.
Qed.
Lemma put_refs s b i p p' z' zi : pages s !! i = Some p -> pg_zone p' = pg_zone p ->
  pages_refs zi (pages (put s b i p' z')) + (if decide (pg_zone p = zi) then pg_refs p else 0) =
  pages_refs zi (pages s) + (if decide (pg_zone p = zi) then pg_refs p' else 0).
Proof. intros Hp Ez. exact (zsum_insert pg_refs zi _ _ _ _ Hp Ez). Qed.

(** * Invariant after [k] calls *)
Record inv (pgref pgshare : N) (k : N) (s : mm) : Prop := {
  inv_layout : layout_ok s;
  inv_counts : counts_ok s;
  inv_refs : refs_ok pgref pgshare s;
  inv_cover : bits_cover s;
  inv_bound : forall zi, pages_refs zi (pages s) <= k;
  inv_len : N.of_nat (length (pages s)) < W64 }.

Lemma referenced_false r sh a : referenced r sh a = false <-> N.land a r = 0 /\ N.land a sh = 0.
Proof.
  unfold referenced. rewrite orb_false_iff, !negb_false_iff, !N.eqb_eq. reflexivity.
Qed.
Lemma lor_nonzero a b : a <> 0 -> N.lor a b <> 0.
Proof. intros H E. apply N.lor_eq_0_iff in E. tauto. Qed.
Lemma referenced_lor r sh a b : referenced r sh (N.lor a b) = referenced r sh a || referenced r sh b.
Proof.
  apply eq_true_iff_eq. rewrite orb_true_iff.
  rewrite <-!not_false_iff_true, !referenced_false, !N.land_lor_distr_l.
  assert (Q : forall x y, N.lor x y = 0 <-> x = 0 /\ y = 0) by (intros x y; apply N.lor_eq_0_iff).
  rewrite !Q.
  destruct (N.eq_dec (N.land a r) 0), (N.eq_dec (N.land b r) 0), (N.eq_dec (N.land a sh) 0), (N.eq_dec (N.land b sh) 0); tauto.
Qed.

Lemma in_use_attr p : in_use p = true <-> pg_attr p <> 0.
Proof. unfold in_use. rewrite negb_true_iff, N.eqb_neq. reflexivity. Qed.
Lemma in_use_attr_f p : in_use p = false <-> pg_attr p = 0.
Proof. unfold in_use. rewrite negb_false_iff, N.eqb_eq. reflexivity. Qed.

Lemma inv_lookup r sh k s i : inv r sh k s -> (i < length (pages s))%nat ->
  exists p z, pages s !! i = Some p /\ zones s !! pg_zone p = Some z /\ pg_phy p = N.of_nat i.
Proof.
  intros I H. destruct (lookup_lt_is_Some_2 _ _ H) as [p Hp]. destruct (inv_layout _ _ _ _ I i p Hp) as [E L].
  destruct (lookup_lt_is_Some_2 _ _ L) as [z Hz]. eauto.
Qed.

(** Facts about the counters of the page's zone. *)
Lemma zone_facts r sh k s i p z : inv r sh k s -> k + 1 < W64 -> pages s !! i = Some p -> zones s !! pg_zone p = Some z ->
  z_using z + z_free z < W64 /\ z_links z + 1 < W64 /\ pg_refs p <= z_links z /\
  (in_use p = false -> 1 <= z_free z) /\ (in_use p = true -> 1 <= z_using z).
Proof.
  intros I Hk Hp Hz. destruct (inv_counts _ _ _ _ I _ _ Hz) as (C1 & C2 & C3).
  pose proof (inv_bound _ _ _ _ I (pg_zone p)). pose proof (inv_len _ _ _ _ I).
  pose proof (used_free_bound (pg_zone p) (pages s)).
  pose proof (zsum_ge pg_refs _ _ _ Hp) as G1. fold (pages_refs (pg_zone p) (pages s)) in G1.
  pose proof (zsum_ge (fun p => if in_use p then 1 else 0) _ _ _ Hp) as G2. cbn beta in G2. fold (pages_used (pg_zone p) (pages s)) in G2.
  pose proof (zsum_ge (fun p => if in_use p then 0 else 1) _ _ _ Hp) as G3. cbn beta in G3. fold (pages_free (pg_zone p) (pages s)) in G3.
  repeat split; try lia; intros E; rewrite E in *; lia.
Qed.

Lemma init_inv r sh k s i flags : inv r sh k s -> k + 1 < W64 -> (i < length (pages s))%nat -> flags <> 0 ->
  exists s', page_init r sh s i flags = Ok s' /\ inv r sh (k + 1) s' /\ length (pages s') = length (pages s).
Proof.
  intros I Hk Hi Hf. destruct (inv_lookup _ _ _ _ _ I Hi) as (p & z & Hp & Hz & Ep).
  destruct (zone_facts _ _ _ _ _ _ _ I Hk Hp Hz) as (F1 & F2 & F3 & F4 & F5).
  destruct (inv_refs _ _ _ _ I i p Hp) as (R1 & R2 & R3).
  unfold page_init. rewrite Hp. cbn [of_option obind]. rewrite Hz. cbn [of_option obind].
  destruct (N.eqb_spec (pg_attr p) 0) as [A|A].
  - assert (U : in_use p = false) by (apply in_use_attr_f; exact A). specialize (R1 U). specialize (F4 U).
    set (p' := {| pg_attr := flags; pg_refs := inc (pg_refs p); pg_phy := pg_phy p; pg_zone := pg_zone p |}).
    assert (U' : in_use p' = true) by (apply in_use_attr; exact Hf).
    assert (E' : pg_refs p' = 1) by (cbn; rewrite R1; reflexivity).
    eexists. split; [reflexivity|]. split; [|unfold put; cbn [pages]; apply insert_length].
    constructor.
    + eapply put_layout; [exact (inv_layout _ _ _ _ I)|exact Hp|exact Hz|reflexivity|reflexivity].
    + eapply put_counts; [exact (inv_counts _ _ _ _ I)|exact Hp|exact Hz|reflexivity| | |]; fold p'.
      * cbn [z_using]. rewrite U, U', inc_ok by lia. lia.
      * cbn [z_free]. rewrite U, U', dec_ok by lia. lia.
      * cbn [z_links]. rewrite R1, E', inc_ok by lia. lia.
    + intros j q Hq. revert j q Hq.
      apply (put_all (fun _ q => (in_use q = false -> pg_refs q = 0) /\ (in_use q = true -> 1 <= pg_refs q) /\ (in_use q = true -> N.land (pg_attr q) r = 0 -> N.land (pg_attr q) sh = 0 -> pg_refs q = 1)) s); [exact (inv_refs _ _ _ _ I)|].
      fold p'. rewrite U', E'. repeat split; intros; congruence || lia.
    + intros j q Hq Uq. unfold put in *. cbn [bits pages] in *. rewrite bit_set.
      apply list_lookup_insert_Some in Hq as [(<- & <- & _)|(_ & Hq)].
      * rewrite Ep, N.eqb_refl, orb_true_r. reflexivity.
      * rewrite (inv_cover _ _ _ _ I j q Hq Uq). reflexivity.
    + intros zi.
      match goal with |- pages_refs zi (pages (put ?s ?b ?i ?pp ?zz)) <= _ => pose proof (put_refs s b i p pp zz zi Hp eq_refl) as PR end.
      fold p' in PR. fold p'. pose proof (inv_bound _ _ _ _ I zi). destruct (decide (pg_zone p = zi)); lia.
    + unfold put. cbn [pages]. rewrite insert_length. exact (inv_len _ _ _ _ I).
  - assert (U : in_use p = true) by (apply in_use_attr; exact A). specialize (R2 U). specialize (F5 U).
    destruct (referenced r sh (pg_attr p) || referenced r sh flags) eqn:Ref.
    + set (p' := {| pg_attr := N.lor (pg_attr p) flags; pg_refs := inc (pg_refs p); pg_phy := pg_phy p; pg_zone := pg_zone p |}).
      assert (U' : in_use p' = true) by (apply in_use_attr; apply lor_nonzero; exact A).
      assert (E' : pg_refs p' = pg_refs p + 1) by (cbn; apply inc_ok; lia).
      eexists. split; [reflexivity|]. split; [|unfold put; cbn [pages]; apply insert_length].
      constructor.
      * eapply put_layout; [exact (inv_layout _ _ _ _ I)|exact Hp|exact Hz|reflexivity|reflexivity].
      * eapply put_counts; [exact (inv_counts _ _ _ _ I)|exact Hp|exact Hz|reflexivity| | |]; fold p'.
        -- cbn [z_using]. rewrite U, U'. lia.
        -- cbn [z_free]. rewrite U, U'. lia.
        -- cbn [z_links]. rewrite E', inc_ok by lia. lia.
      * intros j q Hq. revert j q Hq.
        apply (put_all (fun _ q => (in_use q = false -> pg_refs q = 0) /\ (in_use q = true -> 1 <= pg_refs q) /\ (in_use q = true -> N.land (pg_attr q) r = 0 -> N.land (pg_attr q) sh = 0 -> pg_refs q = 1)) s); [exact (inv_refs _ _ _ _ I)|].
        fold p'. rewrite U', E'. split; [discriminate|]. split; [lia|]. intros _ H1 H2.
        assert (X : referenced r sh (N.lor (pg_attr p) flags) = false) by (apply referenced_false; split; assumption).
        rewrite referenced_lor, Ref in X. discriminate.
      * intros j q Hq Uq. unfold put in *. cbn [bits pages] in *.
        apply list_lookup_insert_Some in Hq as [(<- & <- & _)|(_ & Hq)].
        -- exact (inv_cover _ _ _ _ I i p Hp U).
        -- exact (inv_cover _ _ _ _ I j q Hq Uq).
      * intros zi.
        match goal with |- pages_refs zi (pages (put ?s ?b ?i ?pp ?zz)) <= _ => pose proof (put_refs s b i p pp zz zi Hp eq_refl) as PR end.
        fold p' in PR. fold p'. pose proof (inv_bound _ _ _ _ I zi). destruct (decide (pg_zone p = zi)); lia.
      * unfold put. cbn [pages]. rewrite insert_length. exact (inv_len _ _ _ _ I).
    + apply orb_false_iff in Ref as [Ref1 Ref2].
      set (p' := {| pg_attr := N.lor (pg_attr p) flags; pg_refs := pg_refs p; pg_phy := pg_phy p; pg_zone := pg_zone p |}).
      assert (U' : in_use p' = true) by (apply in_use_attr; apply lor_nonzero; exact A).
      assert (E' : pg_refs p' = 1) by (cbn; apply referenced_false in Ref1 as [? ?]; apply R3; assumption).
      assert (E : pg_refs p = 1) by exact E'.
      eexists. split; [reflexivity|]. split; [|unfold put; cbn [pages]; apply insert_length].
      constructor.
      * eapply put_layout; [exact (inv_layout _ _ _ _ I)|exact Hp|exact Hz|reflexivity|reflexivity].
      * eapply put_counts; [exact (inv_counts _ _ _ _ I)|exact Hp|exact Hz|reflexivity| | |]; fold p'; rewrite ?U, ?U'; lia.
      * intros j q Hq. revert j q Hq.
        apply (put_all (fun _ q => (in_use q = false -> pg_refs q = 0) /\ (in_use q = true -> 1 <= pg_refs q) /\ (in_use q = true -> N.land (pg_attr q) r = 0 -> N.land (pg_attr q) sh = 0 -> pg_refs q = 1)) s); [exact (inv_refs _ _ _ _ I)|].
        fold p'. rewrite U', E'. repeat split; intros; congruence || lia.
      * intros j q Hq Uq. unfold put in *. cbn [bits pages] in *. rewrite bit_set.
        apply list_lookup_insert_Some in Hq as [(<- & <- & _)|(_ & Hq)].
        -- rewrite Ep, N.eqb_refl, orb_true_r. reflexivity.
        -- rewrite (inv_cover _ _ _ _ I j q Hq Uq). reflexivity.
      * intros zi.
        match goal with |- pages_refs zi (pages (put ?s ?b ?i ?pp ?zz)) <= _ => pose proof (put_refs s b i p pp zz zi Hp eq_refl) as PR end.
        fold p' in PR. fold p'. pose proof (inv_bound _ _ _ _ I zi). destruct (decide (pg_zone p = zi)); lia.
      * unfold put. cbn [pages]. rewrite insert_length. exact (inv_len _ _ _ _ I).
Qed.

Lemma clean_inv r sh k s i : inv r sh k s -> k + 1 < W64 -> (i < length (pages s))%nat ->
  exists s', page_clean r sh s i = Ok s' /\ inv r sh (k + 1) s' /\ length (pages s') = length (pages s).
Proof.
  intros I Hk Hi. destruct (inv_lookup _ _ _ _ _ I Hi) as (p & z & Hp & Hz & Ep).
  destruct (zone_facts _ _ _ _ _ _ _ I Hk Hp Hz) as (F1 & F2 & F3 & F4 & F5).
  destruct (inv_refs _ _ _ _ I i p Hp) as (R1 & R2 & R3).
  unfold page_clean. rewrite Hp. cbn [of_option obind]. rewrite Hz. cbn [of_option obind].
  destruct (N.eqb_spec (pg_attr p) 0) as [A|A].
  - exists s. split; [reflexivity|]. split; [|reflexivity]. destruct I as [I1 I2 I3 I4 I5 I6]. constructor; try assumption.
    intros zi. specialize (I5 zi). lia.
  - assert (U : in_use p = true) by (apply in_use_attr; exact A). specialize (R2 U). specialize (F5 U).
    destruct (referenced r sh (pg_attr p)) eqn:Ref; cbv zeta.
    + assert (D : dec (pg_refs p) = pg_refs p - 1) by (apply dec_ok; lia). rewrite D.
      destruct (N.eqb_spec (pg_refs p - 1) 0) as [Z|Z].
      * set (p' := {| pg_attr := 0; pg_refs := pg_refs p - 1; pg_phy := pg_phy p; pg_zone := pg_zone p |}).
        assert (U' : in_use p' = false) by (apply in_use_attr_f; reflexivity).
        assert (E' : pg_refs p' = 0) by exact Z.
        eexists. split; [reflexivity|]. split; [|unfold put; cbn [pages]; apply insert_length].
        constructor.
        -- eapply put_layout; [exact (inv_layout _ _ _ _ I)|exact Hp|exact Hz|reflexivity|reflexivity].
        -- eapply put_counts; [exact (inv_counts _ _ _ _ I)|exact Hp|exact Hz|reflexivity| | |]; fold p'.
           ++ cbn [z_using]. rewrite U, U', dec_ok by lia. lia.
           ++ cbn [z_free]. rewrite U, U', inc_ok by lia. lia.
           ++ cbn [z_links]. rewrite E', dec_ok by lia. lia.
        -- intros j q Hq. revert j q Hq.
           apply (put_all (fun _ q => (in_use q = false -> pg_refs q = 0) /\ (in_use q = true -> 1 <= pg_refs q) /\ (in_use q = true -> N.land (pg_attr q) r = 0 -> N.land (pg_attr q) sh = 0 -> pg_refs q = 1)) s); [exact (inv_refs _ _ _ _ I)|].
           fold p'. rewrite U', E'. repeat split; intros; congruence || lia.
        -- intros j q Hq Uq. unfold put in *. cbn [bits pages] in *.
           apply list_lookup_insert_Some in Hq as [(<- & <- & _)|(_ & Hq)]; [discriminate|].
           exact (inv_cover _ _ _ _ I j q Hq Uq).
        -- intros zi.
           match goal with |- pages_refs zi (pages (put ?s ?b ?i ?pp ?zz)) <= _ => pose proof (put_refs s b i p pp zz zi Hp eq_refl) as PR end.
           fold p' in PR. fold p'. pose proof (inv_bound _ _ _ _ I zi). destruct (decide (pg_zone p = zi)); lia.
        -- unfold put. cbn [pages]. rewrite insert_length. exact (inv_len _ _ _ _ I).
      * set (p' := {| pg_attr := pg_attr p; pg_refs := pg_refs p - 1; pg_phy := pg_phy p; pg_zone := pg_zone p |}).
        assert (U' : in_use p' = true) by (apply in_use_attr; exact A).
        assert (E' : pg_refs p' = pg_refs p - 1) by reflexivity.
        eexists. split; [reflexivity|]. split; [|unfold put; cbn [pages]; apply insert_length].
        constructor.
        -- eapply put_layout; [exact (inv_layout _ _ _ _ I)|exact Hp|exact Hz|reflexivity|reflexivity].
        -- eapply put_counts; [exact (inv_counts _ _ _ _ I)|exact Hp|exact Hz|reflexivity| | |]; fold p'.
           ++ cbn [z_using]. rewrite U, U'. lia.
           ++ cbn [z_free]. rewrite U, U'. lia.
           ++ cbn [z_links]. rewrite E', dec_ok by lia. lia.
        -- intros j q Hq. revert j q Hq.
           apply (put_all (fun _ q => (in_use q = false -> pg_refs q = 0) /\ (in_use q = true -> 1 <= pg_refs q) /\ (in_use q = true -> N.land (pg_attr q) r = 0 -> N.land (pg_attr q) sh = 0 -> pg_refs q = 1)) s); [exact (inv_refs _ _ _ _ I)|].
           fold p'. rewrite U', E'. split; [discriminate|]. split; [lia|]. intros _ H1 H2.
           assert (X : referenced r sh (pg_attr p) = false) by (apply referenced_false; split; assumption). congruence.
        -- intros j q Hq Uq. unfold put in *. cbn [bits pages] in *.
           apply list_lookup_insert_Some in Hq as [(<- & <- & _)|(_ & Hq)].
           ++ exact (inv_cover _ _ _ _ I i p Hp U).
           ++ exact (inv_cover _ _ _ _ I j q Hq Uq).
        -- intros zi.
           match goal with |- pages_refs zi (pages (put ?s ?b ?i ?pp ?zz)) <= _ => pose proof (put_refs s b i p pp zz zi Hp eq_refl) as PR end.
           fold p' in PR. fold p'. pose proof (inv_bound _ _ _ _ I zi). destruct (decide (pg_zone p = zi)); lia.
        -- unfold put. cbn [pages]. rewrite insert_length. exact (inv_len _ _ _ _ I).
    + apply referenced_false in Ref as [Ra Rb]. specialize (R3 U Ra Rb).
      set (p' := {| pg_attr := 0; pg_refs := 0; pg_phy := pg_phy p; pg_zone := pg_zone p |}).
      assert (U' : in_use p' = false) by (apply in_use_attr_f; reflexivity).
      assert (E' : pg_refs p' = 0) by reflexivity.
      eexists. split; [reflexivity|]. split; [|unfold put; cbn [pages]; apply insert_length].
      constructor.
      * eapply put_layout; [exact (inv_layout _ _ _ _ I)|exact Hp|exact Hz|reflexivity|reflexivity].
      * eapply put_counts; [exact (inv_counts _ _ _ _ I)|exact Hp|exact Hz|reflexivity| | |]; fold p'.
        -- cbn [z_using]. rewrite U, U', dec_ok by lia. lia.
        -- cbn [z_free]. rewrite U, U', inc_ok by lia. lia.
        -- cbn [z_links]. rewrite E', dec_ok by lia. lia.
      * intros j q Hq. revert j q Hq.
        apply (put_all (fun _ q => (in_use q = false -> pg_refs q = 0) /\ (in_use q = true -> 1 <= pg_refs q) /\ (in_use q = true -> N.land (pg_attr q) r = 0 -> N.land (pg_attr q) sh = 0 -> pg_refs q = 1)) s); [exact (inv_refs _ _ _ _ I)|].
        fold p'. rewrite U', E'. repeat split; intros; congruence || lia.
      * intros j q Hq Uq. unfold put in *. cbn [bits pages] in *. rewrite bit_clear.
        apply list_lookup_insert_Some in Hq as [(<- & <- & _)|(Hji & Hq)]; [discriminate|].
        rewrite (inv_cover _ _ _ _ I j q Hq Uq), Ep. replace (N.of_nat j =? N.of_nat i) with false by lia. reflexivity.
      * intros zi.
        match goal with |- pages_refs zi (pages (put ?s ?b ?i ?pp ?zz)) <= _ => pose proof (put_refs s b i p pp zz zi Hp eq_refl) as PR end.
        fold p' in PR. fold p'. pose proof (inv_bound _ _ _ _ I zi). destruct (decide (pg_zone p = zi)); lia.
      * unfold put. cbn [pages]. rewrite insert_length. exact (inv_len _ _ _ _ I).
Qed.

Lemma run_inv r sh ops : forall k s, inv r sh k s -> k + N.of_nat (length ops) < W64 -> Forall (op_ok s) ops ->
  exists s', page_run r sh s ops = Ok s' /\ inv r sh (k + N.of_nat (length ops)) s'.
Proof.
  induction ops as [|op ops IH]; intros k s I Hk Ho.
  - exists s. split; [reflexivity|]. cbn [length]. rewrite N.add_0_r. exact I.
  - inversion_clear Ho as [|? ? H1 H2]. cbn [length] in *.
    assert (St : exists s1, page_step r sh s op = Ok s1 /\ inv r sh (k + 1) s1 /\ length (pages s1) = length (pages s)).
    { destruct op as [i flags|i]; cbn [page_step op_ok] in *.
      - destruct H1. apply init_inv; assumption || lia.
      - apply clean_inv; assumption || lia. }
    destruct St as (s1 & E1 & I1 & L1). cbn [page_run]. rewrite E1. cbn [obind].
    destruct (IH (k + 1) s1 I1) as (s' & E' & I'); [lia| |].
    + eapply Forall_impl; [exact H2|]. intros op'. destruct op'; cbn [op_ok]; rewrite L1; tauto.
    + exists s'. split; [exact E'|]. replace (k + N.of_nat (S (length ops))) with (k + 1 + N.of_nat (length ops)) by lia. exact I'.
Qed.

Lemma fresh_zsum f zi ps : (forall i p, ps !! i = Some p -> f p = 0) -> zsum f zi ps = 0.
Proof.
  intros H. induction ps as [|p ps IH]; [reflexivity|]. cbn [zsum].
  rewrite IH by (intros i q Hq; exact (H (S i) q Hq)). rewrite (H 0%nat p eq_refl). destruct (decide _); reflexivity.
Qed.
Lemma fresh_inv r sh s : fresh s -> inv r sh 0 s.
Proof.
  intros (L & P & Z & B).
  assert (U : forall i p, pages s !! i = Some p -> in_use p = false).
  { intros i p Hp. apply in_use_attr_f. apply (P i p Hp). }
  assert (R0 : forall zi, pages_refs zi (pages s) = 0).
  { intros zi. apply fresh_zsum. intros i p Hp. apply (P i p Hp). }
  constructor.
  - exact L.
  - intros zi z Hz. destruct (Z zi z Hz) as (Z1 & Z2 & Z3). split; [|split; [exact Z2|]].
    + rewrite Z1. symmetry. apply fresh_zsum. intros i p Hp. rewrite (U i p Hp). reflexivity.
    + rewrite R0. exact Z3.
  - intros i p Hp. rewrite (U i p Hp). destruct (P i p Hp) as (_ & R & _). repeat split; intros; congruence.
  - intros i p Hp Up. rewrite (U i p Hp) in Up. discriminate.
  - intros zi. rewrite R0. lia.
  - exact B.
Qed.

Lemma run_counts r sh s ops : fresh s -> Forall (op_ok s) ops -> N.of_nat (length ops) < 2 ^ 64 ->
  exists s', page_run r sh s ops = Ok s' /\ counts_ok s' /\ refs_ok r sh s' /\ bits_cover s'.
Proof.
  intros F H L. destruct (run_inv r sh ops 0 s (fresh_inv r sh s F)) as (s' & E & I); [exact L|exact H|].
  exists s'. split; [exact E|]. destruct I; auto.
Qed.

(** * Histories without reference flags: the bitmap is exact *)
Definition plain_state (r sh : N) (s : mm) : Prop :=
  bits_exact s /\ forall i p, pages s !! i = Some p -> N.land (pg_attr p) r = 0 /\ N.land (pg_attr p) sh = 0.

Lemma put_plain r sh s b i p p' z' : plain_state r sh s -> pages s !! i = Some p -> pg_phy p = N.of_nat i ->
  (forall j, bit b j = if j =? N.of_nat i then in_use p' else bit (bits s) j) ->
  N.land (pg_attr p') r = 0 -> N.land (pg_attr p') sh = 0 -> plain_state r sh (put s b i p' z').
Proof.
  intros [X P] Hp Ep Hb H1 H2. split.
  - intros j q Hq. unfold put in *. cbn [bits pages] in *. rewrite Hb.
    apply list_lookup_insert_Some in Hq as [(<- & <- & _)|(Hji & Hq)].
    + rewrite N.eqb_refl. reflexivity.
    + replace (N.of_nat j =? N.of_nat i) with false by lia. exact (X j q Hq).
  - intros j q Hq. unfold put in Hq. cbn [pages] in Hq.
    apply list_lookup_insert_Some in Hq as [(<- & <- & _)|(_ & Hq)]; [split; assumption|]. exact (P j q Hq).
Qed.
Lemma land_lor_0 a b c : N.land a c = 0 -> N.land b c = 0 -> N.land (N.lor a b) c = 0.
Proof. intros H1 H2. rewrite N.land_lor_distr_l, H1, H2. reflexivity. Qed.

Lemma step_plain r sh k s op s' : inv r sh k s -> plain_state r sh s -> op_ok s op -> op_plain r sh op ->
  page_step r sh s op = Ok s' -> plain_state r sh s'.
Proof.
  intros I P O Q E. destruct op as [i flags|i]; cbn [page_step op_ok op_plain] in *.
  - destruct O as [Hi Hf]. destruct Q as [Q1 Q2].
    destruct (inv_lookup _ _ _ _ _ I Hi) as (p & z & Hp & Hz & Ep). destruct (proj2 P i p Hp) as [P1 P2].
    unfold page_init in E. rewrite Hp in E. cbn [of_option obind] in E. rewrite Hz in E. cbn [of_option obind] in E.
    assert (B : forall j, bit (set_bit (bits s) (pg_phy p)) j = if j =? N.of_nat i then true else bit (bits s) j).
    { intros j. rewrite bit_set, Ep. destruct (j =? N.of_nat i); [apply orb_true_r|apply orb_false_r]. }
    destruct (N.eqb_spec (pg_attr p) 0) as [A|A].
    + injection E as <-. eapply put_plain; [exact P|exact Hp|exact Ep| |exact Q1|exact Q2].
      intros j. rewrite B. unfold in_use. cbn [pg_attr]. replace (flags =? 0) with false by lia. reflexivity.
    + rewrite (proj2 (referenced_false r sh (pg_attr p))) in E by (split; assumption).
      rewrite (proj2 (referenced_false r sh flags)) in E by (split; assumption). cbn [orb] in E.
      injection E as <-. eapply put_plain; [exact P|exact Hp|exact Ep| |apply land_lor_0; assumption|apply land_lor_0; assumption].
      intros j. rewrite B. unfold in_use. cbn [pg_attr]. pose proof (lor_nonzero _ flags A).
      replace (N.lor (pg_attr p) flags =? 0) with false by lia. reflexivity.
  - destruct (inv_lookup _ _ _ _ _ I O) as (p & z & Hp & Hz & Ep). destruct (proj2 P i p Hp) as [P1 P2].
    unfold page_clean in E. rewrite Hp in E. cbn [of_option obind] in E. rewrite Hz in E. cbn [of_option obind] in E.
    destruct (N.eqb_spec (pg_attr p) 0) as [A|A]; [injection E as <-; exact P|].
    rewrite (proj2 (referenced_false r sh (pg_attr p))) in E by (split; assumption).
    injection E as <-. eapply put_plain; [exact P|exact Hp|exact Ep| |reflexivity|reflexivity].
    intros j. rewrite bit_clear, Ep. unfold in_use. cbn [pg_attr]. change (0 =? 0) with true. cbn [negb].
    destruct (j =? N.of_nat i); [apply andb_false_r|apply andb_true_r].
Qed.

Lemma run_plain r sh ops : forall k s, inv r sh k s -> plain_state r sh s -> k + N.of_nat (length ops) < W64 ->
  Forall (op_ok s) ops -> Forall (op_plain r sh) ops ->
  exists s', page_run r sh s ops = Ok s' /\ inv r sh (k + N.of_nat (length ops)) s' /\ plain_state r sh s'.
Proof.
  induction ops as [|op ops IH]; intros k s I P Hk Ho Hq.
  - exists s. split; [reflexivity|]. cbn [length]. rewrite N.add_0_r. split; assumption.
  - inversion_clear Ho as [|? ? H1 H2]. inversion_clear Hq as [|? ? Q1 Q2]. cbn [length] in *.
    assert (St : exists s1, page_step r sh s op = Ok s1 /\ inv r sh (k + 1) s1 /\ length (pages s1) = length (pages s)).
    { destruct op as [i flags|i]; cbn [page_step op_ok] in *.
      - destruct H1. apply init_inv; assumption || lia.
      - apply clean_inv; assumption || lia. }
    destruct St as (s1 & E1 & I1 & L1). cbn [page_run]. rewrite E1. cbn [obind].
    pose proof (step_plain _ _ _ _ _ _ I P H1 Q1 E1) as P1.
    destruct (IH (k + 1) s1 I1 P1) as (s' & E' & I' & P'); [lia| |exact Q2|].
    + eapply Forall_impl; [exact H2|]. intros op'. destruct op'; cbn [op_ok]; rewrite L1; tauto.
    + exists s'. split; [exact E'|]. split; [|exact P'].
      replace (k + N.of_nat (S (length ops))) with (k + 1 + N.of_nat (length ops)) by lia. exact I'.
Qed.
Lemma run_exact r sh s ops : fresh s -> Forall (op_ok s) ops -> Forall (op_plain r sh) ops -> N.of_nat (length ops) < 2 ^ 64 ->
  exists s', page_run r sh s ops = Ok s' /\ counts_ok s' /\ refs_ok r sh s' /\ bits_exact s'.
Proof.
  intros F H Q L. destruct (run_plain r sh ops 0 s (fresh_inv r sh s F)) as (s' & E & I & P'); [|exact L|exact H|exact Q|].
  - destruct F as (_ & P & _). split.
    + intros i p Hp. destruct (P i p Hp) as (A & _ & B). rewrite B. symmetry. apply in_use_attr_f. exact A.
    + intros i p Hp. destruct (P i p Hp) as (A & _ & _). rewrite A. split; apply N.land_0_l.
  - exists s'. split; [exact E|]. destruct P'. destruct I; auto.
Qed.
