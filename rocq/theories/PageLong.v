(** The results of PageLife.v without a bound on the length of the history. *)
From stdpp Require Import list list_numbers.
From Coq Require Import NArith Lia ZifyBool ZifyNat ZifyN.
From Verif Require Import Base PageModel PageSpec PageProofs PageExamples PageLifeSpec PageLife PageLongSpec.
Local Open Scope N_scope.

Lemma lsum_all f zi : forall ps ls, lsum f zi ps ls <= all_pages f ls.
Proof.
  induction ps as [|p ps IH]; intros [|l ls]; cbn [lsum all_pages]; try (clear; lia).
  specialize (IH ls). clear - IH. destruct (decide (pg_zone p = zi)); lia.
Qed.
Definition account (ls : list life) : N := N.max (all_pages charged ls) (all_pages linked ls).
Lemma follows_tight r sh free0 m0 k s ls : follows r sh free0 m0 k s ls -> follows r sh free0 m0 (account ls) s ls.
Proof.
  intros [A B C D E F]. split; auto. intros zi. unfold account.
  pose proof (lsum_all charged zi (pages s) ls). pose proof (lsum_all linked zi (pages s) ls). clear - H H0. lia.
Qed.
(** The lives after a list of calls. *)
Definition later (r sh : N) (ops : list page_op) (ls : list life) : list life := imap (fun i l => fold_left (event r sh i) ops l) ls.
Lemma later_nil r sh ls : later r sh [] ls = ls.
Proof. unfold later. cbn. clear. induction ls as [|l ls IH]; [reflexivity|]. cbn. f_equal. exact IH. Qed.
Lemma later_cons r sh o ops ls l : ls !! op_page o = Some l -> later r sh (o :: ops) ls = later r sh ops (<[op_page o := act r sh o l]> ls).
Proof.
  intros Hl. pose proof (lookup_lt_Some _ _ _ Hl) as HL. unfold later. apply list_eq. intros j. rewrite !list_lookup_imap. destruct (decide (j = op_page o)) as [->|N].
  - rewrite list_lookup_insert by exact HL. rewrite Hl. cbn. f_equal. f_equal. destruct o; cbn; rewrite decide_True by reflexivity; reflexivity.
  - rewrite list_lookup_insert_ne by congruence. destruct (ls !! j); [|reflexivity]. cbn. f_equal. f_equal.
    destruct o; cbn in *; rewrite decide_False by congruence; reflexivity.
Qed.
Lemma run_follows_long r sh free0 m0 ops : forall s ls, follows r sh free0 m0 (account ls) s ls -> Forall (op_in (length (pages s))) ops ->
  (forall m, account (later r sh (firstn m ops) ls) + 1 < W64) ->
  exists s', page_run r sh s ops = Ok s' /\ length (pages s') = length (pages s) /\
    follows r sh free0 m0 (account (later r sh ops ls)) s' (later r sh ops ls).
Proof.
  induction ops as [|o ops IH]; intros s ls F I B.
  - exists s. split; [reflexivity|]. split; [reflexivity|]. rewrite later_nil. exact F.
  - apply Forall_cons in I as [I1 I2].
    assert (op_page o < length ls)%nat as HL. { rewrite (f_len _ _ _ _ _ _ _ F). destruct o; exact I1. }
    destruct (lookup_lt_is_Some_2 _ _ HL) as [l Hl].
    pose proof (B 0%nat) as B0. cbn [firstn] in B0. rewrite later_nil in B0.
    destruct (step_follows r sh free0 m0 _ s ls o l F B0 Hl) as (s1 & E & LE & F1).
    destruct (IH s1 _ (follows_tight _ _ _ _ _ _ _ F1)) as (s' & E' & LE' & F'); [rewrite LE; exact I2| |].
    { intros m. specialize (B (S m)). cbn [firstn] in B. rewrite (later_cons _ _ _ _ _ _ Hl) in B. exact B. }
    exists s'. split; [cbn; rewrite E; exact E'|]. split; [congruence|]. rewrite (later_cons _ _ _ _ _ _ Hl). exact F'.
Qed.
Lemma later_lives r sh ops n : later r sh ops (replicate n newborn) = lives r sh ops n.
Proof.
  apply list_eq. intros j. unfold later. rewrite list_lookup_imap. unfold lives. rewrite list_lookup_fmap.
  destruct (decide (j < n)%nat) as [H|H].
  - rewrite lookup_replicate_2 by exact H. rewrite lookup_seq_lt by exact H. reflexivity.
  - rewrite (proj1 (lookup_replicate_None _ _ _)) by (clear - H; lia). rewrite lookup_seq_ge by (clear - H; lia). reflexivity.
Qed.
Theorem life_long r sh s ops : fresh s -> Forall (op_in (length (pages s))) ops -> accountable r sh (length (pages s)) ops ->
  exists s', page_run r sh s ops = Ok s' /\ length (pages s') = length (pages s) /\
    (forall i p, pages s' !! i = Some p -> let l := life_of r sh ops i in
       pg_refs p = refs l /\ bit (bits s') (N.of_nat i) = marked l /\
       (in_use p = true <-> how l <> Unheld) /\ (lends r sh (pg_attr p) = true <-> how l = Lent)) /\
    (forall b, N.of_nat (length (pages s)) <= b -> bit (bits s') b = bit (bits s) b) /\
    (forall zi z, zones s' !! zi = Some z -> let ls := lives r sh ops (length (pages s)) in
       z_using z = lsum charged zi (pages s') ls /\ z_links z = lsum linked zi (pages s') ls /\
       z_free z < 2 ^ 64 /\ (z_free z + lsum charged zi (pages s') ls) mod 2 ^ 64 = pages_free zi (pages s)).
Proof.
  intros Hf Hin Hb.
  destruct (run_follows_long _ _ _ _ ops s _ (follows_tight _ _ _ _ _ _ _ (fresh_follows r sh s Hf)) Hin) as (s' & E & LE & F).
  { intros m. rewrite later_lives. destruct (Hb m) as [H1 H2]. unfold account. change W64 with (2 ^ 64). revert H1 H2. clear.
    generalize (all_pages charged (lives r sh (firstn m ops) (length (pages s)))), (all_pages linked (lives r sh (firstn m ops) (length (pages s)))). lia. }
  rewrite later_lives in F. exists s'. split; [exact E|]. split; [exact LE|]. split; [|split].
  - intros i p Hp. assert (lives r sh ops (length (pages s)) !! i = Some (life_of r sh ops i)) as Hl.
    { unfold lives. rewrite list_lookup_fmap, lookup_seq_lt; [reflexivity|]. rewrite <- LE. eapply lookup_lt_Some. exact Hp. }
    destruct (f_page _ _ _ _ _ _ _ F i p _ Hp Hl) as [(A & B & C) _]. cbv zeta. split; [exact A|]. split; [exact B|].
    rewrite in_use_attr. destruct (how (life_of r sh ops i)).
    + rewrite C. split; [split; intros X; now elim X|]. split; [|discriminate]. unfold lends. rewrite !N.land_0_l. discriminate.
    + destruct C as [C1 C2]. rewrite C2. split; split; auto; discriminate.
    + destruct C as [C1 C2]. rewrite C2. split; split; auto; discriminate.
  - rewrite <- LE. apply (f_out _ _ _ _ _ _ _ F).
  - intros zi z Hz. destruct (f_zone _ _ _ _ _ _ _ F zi z Hz) as (A & B & C & D). cbv zeta.
    split; [exact A|]. split; [exact B|]. split; [exact C|]. change (2 ^ 64) with W64. rewrite D.
    apply N.mod_small. pose proof (free_bound zi (pages s)) as FB. destruct Hf as (_ & _ & _ & Hf). unfold W64. clear - FB Hf. lia.
Qed.

(** ** Histories of every length *)
(** Page [i] is taken with flags that do not lend it and given back, [n] times. *)
Fixpoint borrow (n : nat) (i : nat) (f : N) : list page_op :=
  match n with O => [] | S n => OpInit i f :: OpClean i :: borrow n i f end.
Lemma borrow_one r sh f i : f <> 0 -> lends r sh f = false -> forall n m j,
  let l := life_of r sh (firstn m (borrow n i f)) j in charged l <= (if decide (i = j) then 1 else 0) /\ linked l <= (if decide (i = j) then 1 else 0).
Proof.
  intros Hf Hl. apply N.eqb_neq in Hf.
  assert (T : forall n m j l, l = newborn \/ l = Life Unheld 0 false 0 0 -> let l' := fold_left (event r sh j) (firstn m (borrow n i f)) l in
    charged l' <= (if decide (i = j) then 1 else 0) /\ linked l' <= (if decide (i = j) then 1 else 0)).
  { induction n as [|n IH]; intros m j l L; assert (l = newborn) as -> by (destruct L as [->| ->]; reflexivity); cbn [borrow].
    - rewrite firstn_nil. cbn. clear. destruct (decide (i = j)); lia.
    - destruct m as [|[|m]]; cbn [firstn fold_left event].
      + cbn. clear. destruct (decide (i = j)); lia.
      + destruct (decide (i = j)); cbn; clear; lia.
      + destruct (decide (i = j)) as [->|D].
        * unfold take, give. cbn [how newborn]. rewrite Hf, Hl. cbn. specialize (IH m j (Life Unheld 0 false 0 0) (or_intror eq_refl)).
          rewrite decide_True in IH by reflexivity. exact IH.
        * specialize (IH m j newborn (or_introl eq_refl)). rewrite decide_False in IH by exact D. exact IH. }
  intros n m j. apply T. left. reflexivity.
Qed.
Lemma sum_one (g : nat -> life) f i : (forall j, f (g j) <= if decide (i = j) then 1 else 0) -> forall n a,
  all_pages f (map g (seq a n)) <= 1 /\ ((i < a)%nat -> all_pages f (map g (seq a n)) = 0).
Proof.
  intros H. induction n as [|n IH]; intros a; cbn [seq map all_pages]; [split; [lia|reflexivity]|].
  destruct (IH (S a)) as [I1 I2]. pose proof (H a) as Ha. destruct (decide (i = a)) as [->|D].
  - specialize (I2 ltac:(lia)). split; [clear - Ha I2; lia|]. intros X. exfalso. clear - X. lia.
  - split; [clear - Ha I1; lia|]. intros X. specialize (I2 ltac:(clear - X; lia)). clear - Ha I2. lia.
Qed.
Lemma borrow_ok n : Forall (op_in (length (pages demo_mm))) (borrow n 5 4) /\ accountable 1 2 (length (pages demo_mm)) (borrow n 5 4) /\
  length (borrow n 5 4) = (2 * n)%nat.
Proof.
  split; [|split].
  - induction n as [|n IH]; cbn [borrow]; [constructor|]. apply Forall_cons. split; [cbn; lia|]. apply Forall_cons. split; [cbn; lia|exact IH].
  - intros m. unfold lives. pose proof (borrow_one 1 2 4 5 ltac:(discriminate) eq_refl n m) as B. cbv zeta in B.
    destruct (sum_one (life_of 1 2 (firstn m (borrow n 5 4))) charged 5 (fun j => proj1 (B j)) (length (pages demo_mm)) 0) as [H1 _].
    destruct (sum_one (life_of 1 2 (firstn m (borrow n 5 4))) linked 5 (fun j => proj2 (B j)) (length (pages demo_mm)) 0) as [H2 _].
    revert H1 H2. clear. generalize (all_pages charged (map (life_of 1 2 (firstn m (borrow n 5 4))) (seq 0 (length (pages demo_mm))))).
    generalize (all_pages linked (map (life_of 1 2 (firstn m (borrow n 5 4))) (seq 0 (length (pages demo_mm))))). lia.
  - induction n as [|n IH]; cbn [borrow length]; lia.
Qed.

(** ** The counts *)
Lemma step_inv_any r sh k s op : inv r sh k s -> k + 1 < W64 -> op_ok s op ->
  exists s1, page_step r sh s op = Ok s1 /\ inv r sh (k + 1) s1 /\ length (pages s1) = length (pages s).
Proof.
  intros I Hk O. destruct op as [i flags|i]; cbn [page_step op_ok] in *.
  - destruct O. apply init_inv; assumption || lia.
  - apply clean_inv; assumption || lia.
Qed.
Lemma inv_bounded r sh k j s : inv r sh k s -> (forall zi, pages_refs zi (pages s) <= j) -> inv r sh j s.
Proof. intros [A B C D E F] H. split; auto. Qed.
Lemma ok_length s s1 ops : length (pages s1) = length (pages s) -> Forall (op_ok s) ops -> Forall (op_ok s1) ops.
Proof. intros L H. eapply Forall_impl; [exact H|]. intros op'. destruct op'; cbn [op_ok]; rewrite L; tauto. Qed.
Lemma run_counts_from r sh ops : forall k s, inv r sh k s -> Forall (op_ok s) ops -> referable r sh s ops ->
  exists s' k', page_run r sh s ops = Ok s' /\ inv r sh k' s'.
Proof.
  induction ops as [|op ops IH]; intros k s I Ho B.
  - exists s, k. split; [reflexivity|exact I].
  - inversion_clear Ho as [|? ? H1 H2]. pose proof (B 0%nat s eq_refl) as B0.
    assert (I0 : inv r sh (W64 - 2) s).
    { eapply inv_bounded; [exact I|]. intros zi. specialize (B0 zi). change (2 ^ 64) with W64 in B0. revert B0. clear. rewrite W64_val. generalize (pages_refs zi (pages s)). lia. }
    destruct (step_inv_any r sh _ s op I0 ltac:(rewrite W64_val; lia) H1) as (s1 & E1 & I1 & L1).
    destruct (IH _ s1 I1 (ok_length _ _ _ L1 H2)) as (s' & k' & E' & I').
    + intros m s2 E2. apply (B (S m) s2). cbn [firstn page_run]. rewrite E1. exact E2.
    + exists s', k'. split; [cbn [page_run]; rewrite E1; exact E'|exact I'].
Qed.
Theorem counts_long r sh s ops : fresh s -> Forall (op_ok s) ops -> referable r sh s ops ->
  exists s', page_run r sh s ops = Ok s' /\ counts_ok s' /\ refs_ok r sh s' /\ bits_cover s'.
Proof.
  intros F H L. destruct (run_counts_from r sh ops 0 s (fresh_inv r sh s F) H L) as (s' & k & E & I).
  exists s'. split; [exact E|]. destruct I; auto.
Qed.
(** Without the reference flags a page has at most one reference: the bound always holds. *)
Lemma zsum_one f zi ps : (forall i p, ps !! i = Some p -> f p <= 1) -> zsum f zi ps <= N.of_nat (length ps).
Proof.
  induction ps as [|p ps IH]; intros H; cbn [zsum length]; [lia|].
  pose proof (IH (fun i q Hq => H (S i) q Hq)) as I. pose proof (H 0%nat p eq_refl) as H0. clear - I H0. destruct (decide (pg_zone p = zi)); lia.
Qed.
Lemma plain_refs r sh k s : inv r sh k s -> plain_state r sh s -> forall zi, pages_refs zi (pages s) <= N.of_nat (length (pages s)).
Proof.
  intros I [_ P] zi. apply zsum_one. intros i p Hp. destruct (inv_refs _ _ _ _ I i p Hp) as (A & _ & C). destruct (P i p Hp) as [P1 P2].
  destruct (in_use p); [rewrite C by auto; clear; lia|rewrite A by auto; clear; lia].
Qed.
Lemma run_plain_from r sh ops : forall k s, inv r sh k s -> plain_state r sh s -> N.of_nat (length (pages s)) + 1 < W64 ->
  Forall (op_ok s) ops -> Forall (op_plain r sh) ops ->
  exists s' k', page_run r sh s ops = Ok s' /\ inv r sh k' s' /\ plain_state r sh s'.
Proof.
  induction ops as [|op ops IH]; intros k s I P Hn Ho Hq.
  - exists s, k. split; [reflexivity|]. split; assumption.
  - inversion_clear Ho as [|? ? H1 H2]. inversion_clear Hq as [|? ? Q1 Q2].
    pose proof (inv_bounded _ _ _ _ _ I (plain_refs _ _ _ _ I P)) as I0.
    destruct (step_inv_any r sh _ s op I0 Hn H1) as (s1 & E1 & I1 & L1).
    pose proof (step_plain _ _ _ _ _ _ I P H1 Q1 E1) as P1.
    destruct (IH _ s1 I1 P1) as (s' & k' & E' & I' & P'); [rewrite L1; exact Hn|exact (ok_length _ _ _ L1 H2)|exact Q2|].
    exists s', k'. split; [cbn [page_run]; rewrite E1; exact E'|]. split; assumption.
Qed.
Theorem exact_long r sh s ops : fresh s -> N.of_nat (length (pages s)) + 1 < 2 ^ 64 -> Forall (op_ok s) ops -> Forall (op_plain r sh) ops ->
  exists s', page_run r sh s ops = Ok s' /\ counts_ok s' /\ refs_ok r sh s' /\ bits_exact s'.
Proof.
  intros F Hn H Q. destruct (run_plain_from r sh ops 0 s (fresh_inv r sh s F)) as (s' & k & E & I & P'); [|exact Hn|exact H|exact Q|].
  - destruct F as (_ & P & _). split.
    + intros i p Hp. destruct (P i p Hp) as (A & _ & B). rewrite B. symmetry. apply in_use_attr_f. exact A.
    + intros i p Hp. destruct (P i p Hp) as (A & _ & _). rewrite A. split; apply N.land_0_l.
  - exists s'. split; [exact E|]. destruct P'. destruct I; auto.
Qed.
Lemma borrow_plain n : Forall (op_ok demo_mm) (borrow n 5 4) /\ Forall (op_plain 1 2) (borrow n 5 4).
Proof.
  split; induction n as [|n IH]; cbn [borrow]; try constructor.
  - split; [cbn; lia|discriminate].
  - constructor; [cbn; lia|exact IH].
  - split; reflexivity.
  - constructor; [exact I|exact IH].
Qed.
Lemma borrow_referable n : referable 1 2 demo_mm (borrow n 5 4).
Proof.
  intros m s' E zi. destruct (borrow_plain n) as [B1 B2].
  assert (F : forall (P : page_op -> Prop) l, Forall P l -> Forall P (firstn m l)) by (intros P l H; apply Forall_take; exact H).
  pose proof demo_fresh as D. pose proof D as (_ & P & _).
  assert (P0 : plain_state 1 2 demo_mm).
  { split.
    - intros i p Hp. destruct (P i p Hp) as (A & _ & B). rewrite B. symmetry. apply in_use_attr_f. exact A.
    - intros i p Hp. destruct (P i p Hp) as (A & _ & _). rewrite A. split; apply N.land_0_l. }
  destruct (run_plain_from 1 2 (firstn m (borrow n 5 4)) 0 demo_mm (fresh_inv 1 2 _ D) P0 ltac:(reflexivity) (F _ _ B1) (F _ _ B2)) as (s1 & k & E1 & I1 & P1).
  rewrite E in E1. injection E1 as <-. pose proof (plain_refs _ _ _ _ I1 P1 zi) as L.
  assert (LL : forall ops s t, page_run 1 2 s ops = Ok t -> fresh s -> Forall (op_in (length (pages s))) ops -> accountable 1 2 (length (pages s)) ops -> length (pages t) = length (pages s)).
  { intros ops s t Et Fs Oi Ac. destruct (life_long 1 2 s ops Fs Oi Ac) as (t' & Et' & Lt & _). rewrite Et in Et'. injection Et' as <-. exact Lt. }
  destruct (borrow_ok n) as (O1 & O2 & _).
  assert (Ac : accountable 1 2 (length (pages demo_mm)) (firstn m (borrow n 5 4))).
  { intros j. rewrite firstn_firstn. apply O2. }
  rewrite (LL _ _ _ E D (F _ _ O1) Ac) in L.
  revert L. change (N.of_nat (length (pages demo_mm))) with 130. generalize (pages_refs zi (pages s')). clear. intros x Hx.
  assert (130 + 1 < 2 ^ 64) by reflexivity. lia.
Qed.
