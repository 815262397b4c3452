(** Proofs: the page bookkeeping follows the lives of PageLifeSpec.v, whatever the flags. *)
From stdpp Require Import list list_numbers.
From Coq Require Import NArith Lia ZifyBool ZifyNat ZifyN.
From Verif Require Import Base PageModel PageSpec PageProofs PageExamples PageLifeSpec.
Local Open Scope N_scope.

Lemma lsum_insert f zi ps : forall ls i p l l', ps !! i = Some p -> ls !! i = Some l ->
  lsum f zi ps (<[i := l']> ls) + (if decide (pg_zone p = zi) then f l else 0) =
  lsum f zi ps ls + (if decide (pg_zone p = zi) then f l' else 0).
Proof.
  induction ps as [|q ps IH]; intros ls i p l l' H E; [discriminate|]. destruct ls as [|m ls]; [discriminate|].
  destruct i as [|i]; cbn in H, E.
  - injection H as ->. injection E as ->. change (<[0%nat := l']> (l :: ls)) with (l' :: ls). cbn [lsum].
    destruct (decide (pg_zone p = zi)); clear; lia.
  - specialize (IH ls i p l l' H E). change (<[S i := l']> (m :: ls)) with (m :: <[i := l']> ls). cbn [lsum].
    clear - IH. destruct (decide (pg_zone q = zi)), (decide (pg_zone p = zi)); lia.
Qed.
Lemma lsum_ge f ps : forall ls i p l, ps !! i = Some p -> ls !! i = Some l -> f l <= lsum f (pg_zone p) ps ls.
Proof.
  induction ps as [|q ps IH]; intros ls i p l H E; [discriminate|]. destruct ls as [|m ls]; [discriminate|].
  destruct i as [|i]; cbn in H, E.
  - injection H as ->. injection E as ->. cbn [lsum]. rewrite decide_True by reflexivity. clear. lia.
  - specialize (IH ls i p l H E). cbn [lsum]. clear - IH. destruct (decide (pg_zone q = pg_zone p)); lia.
Qed.
Lemma lsum_zone f zi : forall ps ps' ls, map pg_zone ps = map pg_zone ps' -> lsum f zi ps ls = lsum f zi ps' ls.
Proof.
  induction ps as [|p ps IH]; intros [|p' ps'] ls E; try discriminate; [reflexivity|]. injection E as E1 E2. destruct ls as [|l ls]; [reflexivity|].
  cbn [lsum]. rewrite E1, (IH _ _ E2). reflexivity.
Qed.

Lemma lends_lor r sh a f : lends r sh (N.lor a f) = lends r sh a || lends r sh f.
Proof. exact (referenced_lor r sh a f). Qed.

(** A page and its life. *)
Definition lives_as (r sh : N) (b : N -> N) (i : nat) (p : page) (l : life) : Prop :=
  pg_refs p = refs l /\ bit b (N.of_nat i) = marked l /\
  match how l with
  | Unheld => pg_attr p = 0
  | Held => pg_attr p <> 0 /\ lends r sh (pg_attr p) = false
  | Lent => pg_attr p <> 0 /\ lends r sh (pg_attr p) = true
  end.
(** What is true of every life. *)
Definition healthy (l : life) : Prop :=
  refs l <= linked l /\ (how l <> Unheld -> 1 <= refs l /\ 1 <= charged l).

Record follows (r sh : N) (free0 : nat -> N) (m0 : N -> bool) (k : N) (s : mm) (ls : list life) : Prop := {
  f_len : length ls = length (pages s);
  f_layout : layout_ok s;
  f_page : forall i p l, pages s !! i = Some p -> ls !! i = Some l -> lives_as r sh (bits s) i p l /\ healthy l;
  f_out : forall b, N.of_nat (length (pages s)) <= b -> bit (bits s) b = m0 b;
  f_zone : forall zi z, zones s !! zi = Some z ->
    z_using z = lsum charged zi (pages s) ls /\ z_links z = lsum linked zi (pages s) ls /\
    z_free z < W64 /\ (z_free z + lsum charged zi (pages s) ls) mod W64 = free0 zi mod W64;
  f_bound : forall zi, lsum charged zi (pages s) ls <= k /\ lsum linked zi (pages s) ls <= k }.

Lemma dec_mod x n : (dec x + (n + 1)) mod W64 = (x + n) mod W64.
Proof.
  unfold dec. rewrite N.add_mod_idemp_l by discriminate.
  replace (x + (W64 - 1) + (n + 1)) with (x + n + 1 * W64) by (rewrite W64_val; lia). apply N.mod_add. discriminate.
Qed.

(** One update of a page, its zone and its life. *)
Lemma put_follows r sh free0 m0 k s ls i p z l b p' z' l' :
  follows r sh free0 m0 k s ls -> pages s !! i = Some p -> zones s !! pg_zone p = Some z -> ls !! i = Some l ->
  pg_zone p' = pg_zone p -> pg_phy p' = pg_phy p ->
  (forall j, j <> N.of_nat i -> bit b j = bit (bits s) j) -> lives_as r sh b i p' l' -> healthy l' ->
  z_using z' + charged l = z_using z + charged l' ->
  z_links z' + linked l = z_links z + linked l' ->
  z_free z' < W64 -> (forall n, (z_free z' + (n + charged l')) mod W64 = (z_free z + (n + charged l)) mod W64) ->
  charged l' <= charged l + 1 -> linked l' <= linked l + 1 ->
  follows r sh free0 m0 (k + 1) (put s b i p' z') (<[i := l']> ls).
Proof.
  intros F Hp Hz Hl Ez Ep Hb Hlive Hh Hu Hk Hf1 Hf2 Hc1 Hc2.
  assert (map pg_zone (<[i := p']> (pages s)) = map pg_zone (pages s)) as MZ.
  { change (pg_zone <$> <[i := p']> (pages s) = pg_zone <$> pages s). rewrite list_fmap_insert. apply list_insert_id.
    rewrite list_lookup_fmap, Hp. cbn. rewrite Ez. reflexivity. }
  assert (forall f zi, lsum f zi (<[i := p']> (pages s)) (<[i := l']> ls) + (if decide (pg_zone p = zi) then f l else 0) =
                       lsum f zi (pages s) ls + (if decide (pg_zone p = zi) then f l' else 0)) as LS.
  { intros f zi. rewrite (lsum_zone f zi _ _ _ MZ). apply lsum_insert; assumption. }
  split.
  - cbn. rewrite !insert_length. apply (f_len _ _ _ _ _ _ _ F).
  - eapply put_layout; [apply (f_layout _ _ _ _ _ _ _ F)|exact Hp|exact Hz|exact Ez|exact Ep].
  - intros j q m Hq Hm. cbn in Hq, Hm. destruct (decide (j = i)) as [->|N].
    + rewrite list_lookup_insert in Hq by (eapply lookup_lt_Some; exact Hp). rewrite list_lookup_insert in Hm by (eapply lookup_lt_Some; exact Hl).
      injection Hq as <-. injection Hm as <-. split; [exact Hlive|exact Hh].
    + rewrite list_lookup_insert_ne in Hq by congruence. rewrite list_lookup_insert_ne in Hm by congruence.
      destruct (f_page _ _ _ _ _ _ _ F j q m Hq Hm) as [(A & B & C) D]. split; [|exact D]. split; [exact A|]. split; [|exact C].
      cbn. rewrite Hb by (clear - N; lia). exact B.
  - intros j Hj. cbn in *. rewrite insert_length in Hj. rewrite Hb; [apply (f_out _ _ _ _ _ _ _ F); exact Hj|].
    apply lookup_lt_Some in Hp. clear - Hp Hj. lia.
  - intros zi z1 H1. cbn in *. rewrite Ez in H1. pose proof (LS charged zi) as S1. pose proof (LS linked zi) as S2.
    destruct (decide (pg_zone p = zi)) as [<-|N].
    + rewrite list_lookup_insert in H1 by (eapply lookup_lt_Some; exact Hz). injection H1 as <-.
      destruct (f_zone _ _ _ _ _ _ _ F _ _ Hz) as (C1 & C2 & C3 & C4).
      pose proof (lsum_ge charged _ _ _ _ _ Hp Hl) as G.
      split; [clear - S1 C1 Hu; lia|]. split; [clear - S2 C2 Hk; lia|]. split; [exact Hf1|].
      specialize (Hf2 (lsum charged (pg_zone p) (pages s) ls - charged l)).
      replace (lsum charged (pg_zone p) (pages s) ls - charged l + charged l') with (lsum charged (pg_zone p) (<[i:=p']> (pages s)) (<[i:=l']> ls)) in Hf2 by (clear - S1 G; lia).
      rewrite Hf2. replace (lsum charged (pg_zone p) (pages s) ls - charged l + charged l) with (lsum charged (pg_zone p) (pages s) ls) by (clear - G; lia). exact C4.
    + rewrite list_lookup_insert_ne in H1 by exact N. destruct (f_zone _ _ _ _ _ _ _ F _ _ H1) as (C1 & C2 & C3 & C4).
      rewrite !N.add_0_r in S1, S2. rewrite S1, S2. auto.
  - intros zi. cbn. pose proof (LS charged zi) as S1. pose proof (LS linked zi) as S2. destruct (f_bound _ _ _ _ _ _ _ F zi) as [B1 B2].
    clear - S1 S2 B1 B2 Hc1 Hc2. destruct (decide (pg_zone p = zi)); lia.
Qed.

Lemma same_follows r sh free0 m0 k s ls : follows r sh free0 m0 k s ls -> follows r sh free0 m0 (k + 1) s ls.
Proof. intros [A B C D E F]. split; auto. intros zi. destruct (F zi). lia. Qed.

Definition op_page (o : page_op) : nat := match o with OpInit i _ | OpClean i => i end.
Definition act (r sh : N) (o : page_op) (l : life) : life :=
  match o with OpInit _ f => take (lends r sh f) (f =? 0) l | OpClean _ => give l end.

Lemma step_follows r sh free0 m0 k s ls o l : follows r sh free0 m0 k s ls -> k + 1 < W64 -> ls !! op_page o = Some l ->
  exists s', page_step r sh s o = Ok s' /\ length (pages s') = length (pages s) /\
    follows r sh free0 m0 (k + 1) s' (<[op_page o := act r sh o l]> ls).
Proof.
  intros F Hk Hl. pose proof (lookup_lt_Some _ _ _ Hl) as HL. rewrite (f_len _ _ _ _ _ _ _ F) in HL.
  destruct (lookup_lt_is_Some_2 _ _ HL) as [p Hp]. destruct (f_layout _ _ _ _ _ _ _ F _ _ Hp) as [Hphy HZ].
  destruct (lookup_lt_is_Some_2 _ _ HZ) as [z Hz].
  destruct (f_page _ _ _ _ _ _ _ F _ _ _ Hp Hl) as [(A & B & C) [D1 D2]].
  destruct (f_zone _ _ _ _ _ _ _ F _ _ Hz) as (E1 & E2 & E3 & E4).
  destruct (f_bound _ _ _ _ _ _ _ F (pg_zone p)) as [G1 G2].
  pose proof (lsum_ge charged _ _ _ _ _ Hp Hl) as M1. pose proof (lsum_ge linked _ _ _ _ _ Hp Hl) as M2.
  rewrite <- E1 in G1, M1. rewrite <- E2 in G2, M2. clear E1 E2 E4.
  assert (I1 : inc (z_using z) = z_using z + 1) by (apply inc_ok; clear - G1 Hk; lia).
  assert (I2 : inc (z_links z) = z_links z + 1) by (apply inc_ok; clear - G2 Hk; lia).
  assert (I3 : inc (pg_refs p) = pg_refs p + 1) by (apply inc_ok; clear - A D1 M2 G2 Hk; lia).
  assert (Bn : forall x, inc x < W64) by (intros x; apply N.mod_lt; discriminate).
  assert (Bd : forall x, dec x < W64) by (intros x; apply N.mod_lt; discriminate).
  assert (SB : forall j, j <> N.of_nat (op_page o) -> bit (set_bit (bits s) (pg_phy p)) j = bit (bits s) j).
  { intros j Hj. rewrite bit_set, Hphy. apply N.eqb_neq in Hj. rewrite Hj. apply orb_false_r. }
  assert (SB1 : bit (set_bit (bits s) (pg_phy p)) (N.of_nat (op_page o)) = true).
  { rewrite bit_set, Hphy, N.eqb_refl. apply orb_true_r. }
  assert (CB : forall j, j <> N.of_nat (op_page o) -> bit (clear_bit (bits s) (pg_phy p)) j = bit (bits s) j).
  { intros j Hj. rewrite bit_clear, Hphy. apply N.eqb_neq in Hj. rewrite Hj. apply andb_true_r. }
  assert (CB1 : bit (clear_bit (bits s) (pg_phy p)) (N.of_nat (op_page o)) = false).
  { rewrite bit_clear, Hphy, N.eqb_refl. apply andb_false_r. }
  assert (LEN : forall b p' z', length (pages (put s b (op_page o) p' z')) = length (pages s)) by (intros; cbn; apply insert_length).
  destruct o as [i f|i]; cbn [op_page page_step act] in *.
  - unfold page_init. rewrite Hp. cbn [of_option obind]. rewrite Hz. cbn [of_option obind]. change referenced with lends.
    unfold take. destruct (how l) eqn:HOW.
    + rewrite C. change (0 =? 0) with true. cbv iota. eexists. split; [reflexivity|]. split; [apply LEN|].
      eapply put_follows; try eassumption; try reflexivity; cbn [z_using z_links z_free charged linked]; try (clear; lia).
      * split; [cbn; rewrite I3, A; reflexivity|]. split; [exact SB1|]. cbn [how].
        destruct (N.eqb_spec f 0) as [->|NZ]; [reflexivity|]. destruct (lends r sh f) eqn:RF; split; auto.
      * split; cbn [refs linked charged how]; [clear - D1; lia|intros _; clear; lia].
      * rewrite I1. clear. lia.
      * rewrite I2. clear. lia.
      * apply Bd.
      * intros n. replace (n + (charged l + 1)) with (n + charged l + 1) by (clear; lia). apply dec_mod.
    + destruct C as [C1 C2]. apply N.eqb_neq in C1 as C1'. rewrite C1', C2. cbn [orb].
      destruct (lends r sh f) eqn:RF.
      * eexists. split; [reflexivity|]. split; [apply LEN|].
        eapply put_follows; try eassumption; try reflexivity; cbn [z_using z_links z_free charged linked]; try (clear; lia).
        -- split; [cbn; rewrite I3, A; reflexivity|]. split; [exact B|]. cbn. split; [apply lor_nonzero; exact C1|].
           rewrite lends_lor, RF. apply orb_true_r.
        -- destruct D2 as [D2 D3]; [discriminate|]. split; cbn [refs linked charged how]; [clear - D1; lia|intros _; clear - D3; lia].
        -- rewrite I2. clear. lia.
      * eexists. split; [reflexivity|]. split; [apply LEN|].
        eapply put_follows; try eassumption; try reflexivity; cbn [z_using z_links z_free charged linked]; try (clear; lia).
        -- split; [exact A|]. split; [exact SB1|]. cbn. split; [apply lor_nonzero; exact C1|].
           rewrite lends_lor, RF, C2. reflexivity.
        -- destruct D2 as [D2 D3]; [discriminate|]. split; cbn [refs linked charged how]; [exact D1|intros _; split; assumption].
    + destruct C as [C1 C2]. apply N.eqb_neq in C1 as C1'. rewrite C1', C2. cbn [orb].
      eexists. split; [reflexivity|]. split; [apply LEN|].
      eapply put_follows; try eassumption; try reflexivity; cbn [z_using z_links z_free charged linked]; try (clear; lia).
      * split; [cbn; rewrite I3, A; reflexivity|]. split; [exact B|]. cbn. split; [apply lor_nonzero; exact C1|].
        rewrite lends_lor, C2. reflexivity.
      * destruct D2 as [D2 D3]; [discriminate|]. split; cbn [refs linked charged how]; [clear - D1; lia|intros _; clear - D3; lia].
      * rewrite I2. clear. lia.
  - unfold page_clean. rewrite Hp. cbn [of_option obind]. rewrite Hz. cbn [of_option obind]. change referenced with lends.
    unfold give. destruct (how l) eqn:HOW.
    + rewrite C. change (0 =? 0) with true. cbv iota. eexists. split; [reflexivity|]. split; [reflexivity|].
      rewrite list_insert_id by exact Hl. apply same_follows. exact F.
    + destruct C as [C1 C2]. apply N.eqb_neq in C1 as C1'. rewrite C1', C2. destruct D2 as [D2 D3]; [discriminate|].
      assert (DU : dec (z_using z) = z_using z - 1) by (apply dec_ok; clear - D3 M1 G1 Hk; lia).
      assert (DL : dec (z_links z) = z_links z - 1) by (apply dec_ok; clear - D1 D2 M2 G2 Hk; lia).
      eexists. split; [reflexivity|]. split; [apply LEN|].
      eapply put_follows; try eassumption; try reflexivity; cbn [z_using z_links z_free charged linked]; try (clear; lia).
      * split; [reflexivity|]. split; [exact CB1|]. reflexivity.
      * split; cbn [refs linked charged how]; [clear; lia|intros X; now elim X].
      * rewrite DU. clear - D3 M1. lia.
      * rewrite DL. clear - D1 D2 M2. lia.
      * apply Bn.
      * intros n. unfold inc. rewrite N.add_mod_idemp_l by discriminate. f_equal. clear - D3. lia.
    + destruct C as [C1 C2]. apply N.eqb_neq in C1 as C1'. rewrite C1', C2. destruct D2 as [D2 D3]; [discriminate|].
      assert (DR : dec (pg_refs p) = refs l - 1) by (rewrite A; apply dec_ok; clear - D1 D2 M2 G2 Hk; lia).
      assert (DU : dec (z_using z) = z_using z - 1) by (apply dec_ok; clear - D3 M1 G1 Hk; lia).
      assert (DL : dec (z_links z) = z_links z - 1) by (apply dec_ok; clear - D1 D2 M2 G2 Hk; lia).
      rewrite DR. destruct (N.eqb_spec (refs l) 1) as [R1|R1].
      * rewrite R1. change (1 - 1 =? 0) with true. cbv iota. eexists. split; [reflexivity|]. split; [apply LEN|].
        eapply put_follows; try eassumption; try reflexivity; cbn [z_using z_links z_free charged linked]; try (clear; lia).
        -- split; [reflexivity|]. split; [exact B|]. reflexivity.
        -- split; cbn [refs linked charged how]; [clear; lia|intros X; now elim X].
        -- rewrite DU. clear - D3 M1. lia.
        -- rewrite DL. clear - D1 D2 M2. lia.
        -- apply Bn.
        -- intros n. unfold inc. rewrite N.add_mod_idemp_l by discriminate. f_equal. clear - D3. lia.
      * replace (refs l - 1 =? 0) with false by (symmetry; apply N.eqb_neq; clear - D2 R1; lia).
        eexists. split; [reflexivity|]. split; [apply LEN|].
        eapply put_follows; try eassumption; try reflexivity; cbn [z_using z_links z_free charged linked]; try (clear; lia).
        -- split; [reflexivity|]. split; [exact B|]. split; [exact C1|exact C2].
        -- split; cbn [refs linked charged how]; [clear - D1; lia|intros _; clear - D2 D3 R1; lia].
        -- rewrite DL. clear - D1 D2 M2. lia.
Qed.

Lemma run_follows r sh free0 m0 ops : forall k s ls, follows r sh free0 m0 k s ls -> Forall (op_in (length (pages s))) ops ->
  k + N.of_nat (length ops) < W64 ->
  exists s', page_run r sh s ops = Ok s' /\ length (pages s') = length (pages s) /\
    follows r sh free0 m0 (k + N.of_nat (length ops)) s' (imap (fun i l => fold_left (event r sh i) ops l) ls).
Proof.
  induction ops as [|o ops IH]; intros k s ls F I B.
  - exists s. split; [reflexivity|]. split; [reflexivity|]. cbn. rewrite N.add_0_r.
    replace (imap (λ (_ : nat) (l : life), l) ls) with ls; [exact F|]. clear. induction ls as [|l ls IH]; [reflexivity|]. cbn. f_equal. exact IH.
  - apply Forall_cons in I as [I1 I2]. cbn [length] in B.
    assert (op_page o < length ls)%nat as HL. { rewrite (f_len _ _ _ _ _ _ _ F). destruct o; exact I1. }
    destruct (lookup_lt_is_Some_2 _ _ HL) as [l Hl].
    destruct (step_follows r sh free0 m0 k s ls o l F) as (s1 & E & LE & F1); [clear - B; lia|exact Hl|].
    destruct (IH (k + 1) s1 _ F1) as (s' & E' & LE' & F'); [rewrite LE; exact I2|clear - B; lia|].
    exists s'. split; [cbn; rewrite E; exact E'|]. split; [congruence|].
    replace (k + N.of_nat (length (o :: ops))) with (k + 1 + N.of_nat (length ops)) by (cbn [length]; clear; lia).
    replace (imap (λ (i : nat) (l0 : life), fold_left (event r sh i) (o :: ops) l0) ls)
      with (imap (λ (i : nat) (l0 : life), fold_left (event r sh i) ops l0) (<[op_page o:=act r sh o l]> ls)); [exact F'|].
    apply list_eq. intros j. rewrite !list_lookup_imap. destruct (decide (j = op_page o)) as [->|N].
    + rewrite list_lookup_insert by exact HL. rewrite Hl. cbn. f_equal. f_equal. destruct o; cbn; rewrite decide_True by reflexivity; reflexivity.
    + rewrite list_lookup_insert_ne by congruence. destruct (ls !! j); [|reflexivity]. cbn. f_equal. f_equal.
      destruct o; cbn in *; rewrite decide_False by congruence; reflexivity.
Qed.

Lemma fresh_follows r sh s : fresh s ->
  follows r sh (fun zi => pages_free zi (pages s)) (bit (bits s)) 0 s (replicate (length (pages s)) newborn).
Proof.
  intros (L & P & Z & B).
  assert (forall f zi ps, f newborn = 0 -> lsum f zi ps (replicate (length ps) newborn) = 0) as S0.
  { intros f zi ps H. induction ps as [|q ps IH]; [reflexivity|]. cbn [length replicate lsum]. rewrite H, IH. destruct (decide _); reflexivity. }
  split.
  - apply replicate_length.
  - exact L.
  - intros i p l Hp Hl. apply lookup_replicate in Hl as [-> _]. destruct (P _ _ Hp) as (A1 & A2 & A3). split.
    + split; [exact A2|]. split; [exact A3|exact A1].
    + split; [cbn; lia|]. intros X. now elim X.
  - reflexivity.
  - intros zi z Hz. destruct (Z _ _ Hz) as (A1 & A2 & A3). rewrite !S0 by reflexivity. split; [exact A1|]. split; [exact A3|].
    rewrite A2. pose proof (free_bound zi (pages s)) as FB. split; [unfold W64; clear - FB B; lia|]. rewrite N.add_0_r. reflexivity.
  - intros zi. rewrite !S0 by reflexivity. lia.
Qed.

Theorem life_exact r sh s ops : fresh s -> Forall (op_in (length (pages s))) ops -> N.of_nat (length ops) < 2 ^ 64 ->
  exists s', page_run r sh s ops = Ok s' /\ length (pages s') = length (pages s) /\
    (forall i p, pages s' !! i = Some p -> let l := life_of r sh ops i in
       pg_refs p = refs l /\ bit (bits s') (N.of_nat i) = marked l /\
       (in_use p = true <-> how l <> Unheld) /\ (lends r sh (pg_attr p) = true <-> how l = Lent)) /\
    (forall b, N.of_nat (length (pages s)) <= b -> bit (bits s') b = bit (bits s) b) /\
    (forall zi z, zones s' !! zi = Some z -> let ls := lives r sh ops (length (pages s)) in
       z_using z = lsum charged zi (pages s') ls /\ z_links z = lsum linked zi (pages s') ls /\
       z_free z < 2 ^ 64 /\ (z_free z + lsum charged zi (pages s') ls) mod 2 ^ 64 = pages_free zi (pages s)).
Proof.
  intros Hf Hin Hb. destruct (run_follows _ _ _ _ ops 0 s _ (fresh_follows r sh s Hf) Hin Hb) as (s' & E & LE & F).
  assert (imap (fun i l => fold_left (event r sh i) ops l) (replicate (length (pages s)) newborn) = lives r sh ops (length (pages s))) as LV.
  { apply list_eq. intros j. rewrite list_lookup_imap. unfold lives. rewrite list_lookup_fmap.
    destruct (decide (j < length (pages s))%nat) as [H|H].
    - rewrite lookup_replicate_2 by exact H. rewrite lookup_seq_lt by exact H. reflexivity.
    - rewrite (proj1 (lookup_replicate_None _ _ _)) by (clear - H; lia). rewrite lookup_seq_ge by (clear - H; lia). reflexivity. }
  rewrite LV in F. exists s'. split; [exact E|]. split; [exact LE|]. split; [|split].
  - intros i p Hp. assert (lives r sh ops (length (pages s)) !! i = Some (life_of r sh ops i)) as Hl.
    { unfold lives. rewrite list_lookup_fmap, lookup_seq_lt; [reflexivity|]. rewrite <- LE. eapply lookup_lt_Some. exact Hp. }
    destruct (f_page _ _ _ _ _ _ _ F i p _ Hp Hl) as [(A & B & C) _]. cbv zeta. split; [exact A|]. split; [exact B|].
    rewrite in_use_attr. destruct (how (life_of r sh ops i)).
    + rewrite C. split; [split; intros X; now elim X|]. split; [|discriminate]. unfold lends. rewrite !N.land_0_l. discriminate.
    + destruct C as [C1 C2]. rewrite C2. split; split; auto; discriminate.
    + destruct C as [C1 C2]. rewrite C2. split; split; auto; discriminate.
  - rewrite <- LE. apply (f_out _ _ _ _ _ _ _ F).
  - intros zi z Hz. destruct (f_zone _ _ _ _ _ _ _ F zi z Hz) as (A & B & C & D). cbv zeta.
    split; [exact A|]. split; [exact B|]. split; [exact C|]. change (2 ^ 64) with W64. rewrite D.
    apply N.mod_small. pose proof (free_bound zi (pages s)) as FB. destruct Hf as (_ & _ & _ & Hf). unfold W64. clear - FB Hf. lia.
Qed.

(** Non-zero flags: a page is charged while it is held, once, and its links are its references. *)
Lemma charged_once r sh ops i : Forall (fun o => match o with OpInit _ f => f <> 0 | OpClean _ => True end) ops ->
  let l := life_of r sh ops i in charged l = (if decide (how l = Unheld) then 0 else 1) /\ linked l = refs l /\
    (how l = Unheld -> refs l = 0) /\ (how l <> Unheld -> marked l = true /\ 1 <= refs l) /\ (how l = Held -> refs l = 1).
Proof.
  intros H. unfold life_of.
  assert (G : forall l, charged l = (if decide (how l = Unheld) then 0 else 1) /\ linked l = refs l /\
    (how l = Unheld -> refs l = 0) /\ (how l <> Unheld -> marked l = true /\ 1 <= refs l) /\ (how l = Held -> refs l = 1) ->
    let l' := fold_left (event r sh i) ops l in charged l' = (if decide (how l' = Unheld) then 0 else 1) /\ linked l' = refs l' /\
    (how l' = Unheld -> refs l' = 0) /\ (how l' <> Unheld -> marked l' = true /\ 1 <= refs l') /\ (how l' = Held -> refs l' = 1)).
  2:{ apply G. cbn. repeat split; auto; try discriminate; intros X; now elim X. }
  induction H as [|o ops Ho Hops IH]; intros l Hl; [exact Hl|]. cbn [fold_left]. apply IH. clear IH Hops.
  destruct Hl as (A & B & C & D & E). destruct o as [j f|j]; cbn [event]; (destruct (decide (j = i)); [|repeat split; auto; apply D; auto]).
  - apply N.eqb_neq in Ho. unfold take. rewrite Ho. destruct l as [[| |] rf mk ch lk]; cbn [how refs marked charged linked] in *.
    + cbn in A. rewrite B, (C eq_refl), A. destruct (lends r sh f); cbn; repeat split; auto; try discriminate; try lia; intros X; now elim X.
    + destruct D as [D1 D2]; [discriminate|]. cbn in A. rewrite B, (E eq_refl), A, D1. destruct (lends r sh f); cbn; repeat split; auto; try discriminate; try lia.
    + destruct D as [D1 D2]; [discriminate|]. cbn in A. rewrite B, A, D1. cbn. repeat split; auto; try discriminate; try lia.
  - unfold give. destruct l as [[| |] rf mk ch lk]; cbn [how refs marked charged linked] in *.
    + repeat split; auto; apply D; auto.
    + cbn in A. rewrite B, (E eq_refl), A. cbn. repeat split; auto; try discriminate; intros X; now elim X.
    + destruct D as [D1 D2]; [discriminate|]. cbn in A. rewrite B, A, D1. destruct (N.eqb_spec rf 1) as [->|NE]; cbn.
      * repeat split; auto; try discriminate; intros X; now elim X.
      * repeat split; auto; try discriminate. clear - D2 NE. lia.
Qed.

Definition life_ops : list page_op := [OpInit 0 4; OpInit 5 0; OpInit 7 1; OpInit 7 4; OpClean 7; OpInit 9 8; OpInit 9 2; OpClean 9; OpClean 7; OpInit 11 4; OpClean 11].
(** Page 0 held; 5 initialised with no flags: charged, marked, not in use; 7 and 9 were lent and given back: 7 twice, 9 once; 11 came and went. *)
Lemma life_demo : fresh demo_mm /\ Forall (op_in (length (pages demo_mm))) life_ops /\
  map (life_of 1 2 life_ops) [0;5;7;9;11]%nat =
    [Life Held 1 true 1 1; Life Unheld 1 true 1 1; Life Unheld 0 true 0 0; Life Lent 1 true 1 1; Life Unheld 0 false 0 0] /\
  match page_run 1 2 demo_mm life_ops with
  | Ok s => match zones s !! 0%nat with Some z => z_using z = 2 /\ z_free z = 127 /\ z_links z = 2 | None => False end
  | _ => False
  end.
Proof.
  split; [exact demo_fresh|]. split; [|split; vm_compute; repeat split].
  unfold life_ops. repeat (apply Forall_cons; split; [vm_compute; lia|]). constructor.
Qed.
