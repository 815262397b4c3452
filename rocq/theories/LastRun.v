(** The run of main to its end. *)
From stdpp Require Import list.
From Coq Require Import NArith Lia ZifyBool ZifyNat ZifyN.
From Verif Require Import Base PagingModel PagingSpec PagingProofs SwitchModel SwitchSpec SwitchProofs E820Model E820Proofs
  StartModel StartSpec StartProofs LastModel LastSpec LastProofs.
Local Open Scope N_scope.

Lemma lookup_good pde w4 w va s p : pd_ok pde (open_page w4) -> good pde s -> va < 2 ^ 64 -> expected_phys va = Some p ->
  (w = true -> wr_at (open_page w4) va = true) ->
  exists s' c, LastModel.lookup w va s = At (p, s') /\ good pde s' /\ grows (pm s) (pm s') /\
    (forall pg, pg <> page_of va -> tlb s' pg = tlb s pg) /\ tlb s' (page_of va) = Some c /\
    N.testbit (T (pm s') (1024 + index va 21)) 5 = true /\ (w = true -> N.testbit (T (pm s') (1024 + index va 21)) 6 = true) /\
    writable (c_map c) = wr_at (open_page w4) va /\ c_dirty c = N.testbit (T (pm s') (1024 + index va 21)) 6.
Proof.
  intros Ok G Hva E Hw. pose proof (go_clean _ _ G) as C. unfold LastModel.lookup.
  rewrite (clean_walks pde _ (pm s) va Ok C Hva), E. cbn [phys writable user].
  replace (w && negb (wr_at (open_page w4) va)) with false by (destruct w; [rewrite Hw by reflexivity; reflexivity|reflexivity]).
  rewrite (clean_path pde _ (pm s) va p Ok C Hva E).
  destruct (mark3 w (index va 39) (index va 21) (pm s) (index_lt va 39) (index_lt va 21) (proj1 C)) as (Gr & B5 & B6 & _ & _).
  cbn [List.last]. set (m' := mark_path w _ (pm s)) in *. cbv zeta. do 2 eexists. split; [reflexivity|]. cbn [pm tlb].
  rewrite N.eqb_refl. assert (C' : clean pde m') by exact (grows_clean pde _ _ Gr C).
  split; [|split; [exact Gr|split; [intros pg Hpg; destruct (N.eqb_spec pg (page_of va)); [contradiction|reflexivity]|split; [reflexivity|] ] ] ].
  2:{ cbn [c_map writable c_dirty]. auto. }
  clearbody m'. split; cbn [pm tlb]; [exact C'|]. intros va' c' Hva' Ht.
  destruct (N.eqb_spec (page_of va') (page_of va)) as [Hp|Hp].
  - apply (inj Some) in Ht. subst c'. cbn [c_map phys writable c_dirty]. destruct (same_page va va' p Hva Hva' Hp E) as (E' & Hle & Ei).
    rewrite Ei. split; [exact E'|]. split.
    + intros Hn. replace (wr_at (open_page w4) va) with (wr_at (open_page w4) va').
      * exact (open_at w4 va' _ Hva' E' Hn).
      * unfold wr_at. destruct (mapped_index va p Hva E) as (o & Eo & _ & _ & _ & Io & _). destruct (mapped_index va' _ Hva' E') as (o' & Eo' & _ & _ & _ & Io' & _).
        rewrite Eo, Eo'. f_equal. change 0x200000 with 2097152. rewrite <- Io, <- Io'. exact Ei.
    + split; [exact B5|]. intros Hd. exact Hd.
  - destruct (go_tlb _ _ G va' c' Hva' Ht) as (H1 & H2 & H3 & H4). pose proof (index_lt va' 21). split; [exact H1|]. split; [exact H2|].
    split; [apply (gr_bits _ _ Gr (proj1 C)); [lia|exact H3]|]. intros Hd. apply (gr_bits _ _ Gr (proj1 C)); [lia|exact (H4 Hd)].
Qed.
Lemma access_good pde w4 w va s p : pd_ok pde (open_page w4) -> good pde s -> va < 2 ^ 64 -> expected_phys va = Some p ->
  (w = true -> wr_at (open_page w4) va = true /\ forall c, tlb s (page_of va) = Some c -> writable (c_map c) = true) ->
  exists s' c, LastModel.access w va s = At (p, s') /\ good pde s' /\ grows (pm s) (pm s') /\
    (forall pg, pg <> page_of va -> tlb s' pg = tlb s pg) /\ tlb s' (page_of va) = Some c /\
    (w = true -> writable (c_map c) = true /\ c_dirty c = true /\ N.testbit (T (pm s') (1024 + index va 21)) 5 = true /\ N.testbit (T (pm s') (1024 + index va 21)) 6 = true) /\
    (tlb s (page_of va) = Some c \/ (tlb s (page_of va) = None \/ w = true) /\ writable (c_map c) = wr_at (open_page w4) va /\ c_dirty c = N.testbit (T (pm s') (1024 + index va 21)) 6).
Proof.
  intros Ok G Hva E Hw. unfold LastModel.access. destruct (tlb s (page_of va)) as [c|] eqn:Et.
  - destruct (w && negb (writable (c_map c))) eqn:E1.
    { exfalso. apply andb_true_iff in E1 as [-> E1]. rewrite (proj2 (Hw eq_refl) c eq_refl) in E1. discriminate. }
    destruct (w && negb (c_dirty c)) eqn:E2.
    + destruct w; [|discriminate]. destruct (lookup_good pde w4 true va s p Ok G Hva E (fun _ => proj1 (Hw eq_refl))) as (s' & c' & L & G' & Gr & O & Tl & B5 & B6 & Wr & Di).
      exists s', c'. split; [exact L|]. split; [exact G'|]. split; [exact Gr|]. split; [exact O|]. split; [exact Tl|].
      split; [intros _; rewrite Wr, Di, B5, B6 by reflexivity; rewrite (proj1 (Hw eq_refl)); auto|]. right. auto.
    + destruct (go_tlb _ _ G va c Hva Et) as (H1 & H2 & H3 & H4). rewrite E in H1. injection H1 as ->.
      exists s, c. split; [reflexivity|]. split; [exact G|]. split; [apply grows_refl|]. split; [auto|]. split; [exact Et|]. split; [|auto].
      intros ->. assert (c_dirty c = true) as D by (destruct (c_dirty c); [reflexivity|discriminate]). split; [exact (proj2 (Hw eq_refl) c eq_refl)|]. auto.
  - destruct (lookup_good pde w4 w va s p Ok G Hva E (fun H => proj1 (Hw H))) as (s' & c' & L & G' & Gr & O & Tl & B5 & B6 & Wr & Di).
    exists s', c'. split; [exact L|]. split; [exact G'|]. split; [exact Gr|]. split; [exact O|]. split; [exact Tl|].
    split; [|right; auto]. intros H. rewrite Wr, Di, B5, B6 by exact H. rewrite (proj1 (Hw H)). auto.
Qed.

(** ** Between the accesses *)
Definition d4 (m : N -> N) : Prop := N.testbit (T m 1026) 5 = true /\ N.testbit (T m 1026) 6 = true.
Definition held (open r : bool) (s : proc) : Prop :=
  match tlb s (page_of cell) with
  | Some c => if r then writable (c_map c) = true /\ c_dirty c = true else open = false /\ writable (c_map c) = false
  | None => r = false
  end.
Definition granted (s : proc) : Prop := forall c, tlb s (page_of cell) = Some c -> writable (c_map c) = true.
Definition kept (s s' : proc) : Prop := (forall a, in_4m a -> pm s' a = pm s a) /\ (d4 (pm s) -> d4 (pm s')).
Lemma cell_phys : expected_phys cell = Some 0x400100. Proof. reflexivity. Qed.
Lemma page_4m va : va < 2 ^ 64 -> page_of va = page_of cell -> exists p, expected_phys va = Some p /\ in_4m p /\ index va 21 = 2.
Proof.
  intros Hva Hp. destruct (same_page cell va 0x400100 eq_refl Hva Hp cell_phys) as (E & _ & I). eexists. split; [exact E|]. split; [|exact I].
  change (cell mod 2 ^ 21) with 0x100. unfold in_4m. change (2 ^ 21) with 2097152. lia.
Qed.
Lemma wr_4m w4 va : va < 2 ^ 64 -> page_of va = page_of cell -> wr_at (open_page w4) va = w4.
Proof.
  intros Hva Hp. destruct (page_4m va Hva Hp) as (p & E & _ & I). destruct (mapped_index va p Hva E) as (o & Eo & _ & _ & _ & Io & _).
  unfold wr_at. rewrite Eo. unfold open_page. change 0x200000 with 2097152. rewrite <- Io, I. reflexivity.
Qed.
Lemma not_in_4m_outside a : in_4m a -> outside a. Proof. unfold in_4m, outside. lia. Qed.
Lemma grows_d4 m m' : grows m m' -> bytewise m -> d4 m -> d4 m'.
Proof. intros G B [D5 D6]. split; apply (gr_bits _ _ G B); try exact D5; try exact D6; reflexivity. Qed.
Lemma kept_trans s1 s2 s3 : kept s1 s2 -> kept s2 s3 -> kept s1 s3.
Proof. intros [A1 A2] [B1 B2]. split; [|auto]. intros a Ha. rewrite B1, A1 by exact Ha. reflexivity. Qed.
(** a write outside the tables *)
Lemma poke_good pde s a bs : good pde s -> Forall (fun b => b < 256) bs -> a + N.of_nat (length bs) <= 0x101000 \/ 0x104000 <= a ->
  good pde {| pm := store (pm s) a bs; tlb := tlb s |} /\ forall j, j < 1536 -> T (store (pm s) a bs) j = T (pm s) j.
Proof.
  intros G Hb Ha.
  assert (ET : forall j, j < 1536 -> T (store (pm s) a bs) j = T (pm s) j) by (intros j Hj; unfold T; apply quads_other; lia).
  split; [|exact ET]. split; cbn [pm tlb].
  - split; [apply store_bytewise; [exact Hb|apply G]|]. intros j Hj. rewrite ET by exact Hj. apply G, Hj.
  - intros va c Hva Ht. pose proof (index_lt va 21). rewrite ET by lia. apply G; assumption.
Qed.
Lemma happen_good pde w4 e s : pd_ok pde (open_page w4) -> good pde s -> harmless e ->
  exists s', happen e s = At s' /\ good pde s' /\ kept s s' /\ (w4 = true -> granted s -> granted s') /\
    forall r, d4 (pm s) -> held w4 r s -> held w4 (remembers w4 r [e]) s'.
Proof.
  intros Ok G H. destruct e as [pg|va|va v].
  - cbn [happen]. eexists. split; [reflexivity|]. split; [|split; [|split] ].
    + split; cbn [pm tlb]; [apply G|]. intros va c Hva Ht. destruct (page_of va =? pg); [discriminate|]. apply G; assumption.
    + split; cbn [pm]; auto.
    + intros _ Hg c. cbn [tlb]. destruct (page_of cell =? pg); [discriminate|]. apply Hg.
    + intros r _ Hh. unfold held in *. cbn [tlb remembers]. rewrite (N.eqb_sym (page_of cell) pg). destruct (pg =? page_of cell); [reflexivity|exact Hh].
  - cbn [harmless] in H. cbn [happen]. destruct (expected_phys va) as [p|] eqn:E.
    + destruct (access_good pde w4 false va s p Ok G H E ltac:(discriminate)) as (s' & c & A & G' & Gr & O & Tl & _ & Src).
      rewrite A. exists s'. split; [reflexivity|]. split; [exact G'|]. split; [|split].
      * split; [intros a Ha; apply Gr, not_in_4m_outside, Ha|]. apply grows_d4; [exact Gr|apply G].
      * intros -> Hg c' Hc'. destruct (N.eq_dec (page_of cell) (page_of va)) as [Hp|Hp].
        -- rewrite Hp, Tl in Hc'. injection Hc' as <-. destruct Src as [Src|(_ & Wr & _)]; [apply Hg; rewrite Hp; exact Src|].
           rewrite Wr. apply wr_4m; [exact H|symmetry; exact Hp].
        -- rewrite O in Hc' by exact Hp. apply Hg, Hc'.
      * intros r D Hh. unfold held in *. cbn [remembers]. destruct (N.eqb_spec (page_of va) (page_of cell)) as [Hp|Hp].
        -- rewrite Hp in *. rewrite Tl. destruct Src as [Src|([Src|Src] & Wr & Di)]; [|..|discriminate].
           ++ rewrite Src in Hh. destruct r; [exact Hh|]. destruct Hh as [-> Hh]. exact (conj eq_refl Hh).
           ++ rewrite Src in Hh. subst r. cbn [orb]. rewrite wr_4m in Wr by assumption.
              destruct (page_4m va H Hp) as (_ & _ & _ & I). rewrite I in Di. change (1024 + 2) with 1026 in Di.
              rewrite (proj2 (grows_d4 _ _ Gr (proj1 (go_clean _ _ G)) D)) in Di. destruct w4; auto.
        -- rewrite O by congruence. exact Hh.
    + unfold LastModel.access. destruct (tlb s (page_of va)) as [c|] eqn:Et.
      { destruct (go_tlb _ _ G va c H Et) as [H1 _]. congruence. }
      unfold LastModel.lookup. rewrite (clean_walks pde _ (pm s) va Ok (go_clean _ _ G) H), E. exists s. split; [reflexivity|]. split; [exact G|].
      split; [split; auto|]. split; [auto|]. intros r _ Hh. cbn [remembers]. destruct (N.eqb_spec (page_of va) (page_of cell)) as [Hp|Hp]; [|exact Hh].
      destruct (page_4m va H Hp) as (p & E' & _). congruence.
  - cbn [harmless] in H. destruct H as (Hva & p & E & Hp1 & Hp2). cbn [happen].
    assert (Hpg : page_of va <> page_of cell) by (intros Hp; destruct (page_4m va Hva Hp) as (q & Eq & Hq & _); rewrite E in Eq; injection Eq as <-; exact (Hp2 Hq)).
    destruct (access_good pde w4 true va s p Ok G Hva E) as (s' & c & A & G' & Gr & O & Tl & _ & _).
    { intros _. split; [exact (open_at w4 va p Hva E Hp2)|]. intros c Hc. destruct (go_tlb _ _ G va c Hva Hc) as (H1 & H2 & _).
      rewrite E in H1. injection H1 as H1. apply H2. rewrite <- H1. exact Hp2. }
    rewrite A. destruct (poke_good pde s' p [v mod 256] G') as [G2 ET].
    { constructor; [apply N.mod_lt; discriminate|constructor]. } { cbn [length]. lia. }
    eexists. split; [reflexivity|]. split; [exact G2|]. split; [|split].
    + split; cbn [pm].
      * intros a Ha. rewrite store_outside by (cbn [length]; unfold in_4m in Ha; lia). apply Gr, not_in_4m_outside, Ha.
      * intros D. unfold d4. rewrite ET by reflexivity. exact (grows_d4 _ _ Gr (proj1 (go_clean _ _ G)) D).
    + intros _ Hg c' Hc'. cbn [tlb] in Hc'. rewrite O in Hc' by congruence. apply Hg, Hc'.
    + intros r D Hh. cbn [remembers]. unfold held in *. cbn [tlb]. rewrite O by congruence. exact Hh.
Qed.
Lemma remembers_app open a : forall r b, remembers open r (a ++ b) = remembers open (remembers open r a) b.
Proof. induction a as [|e a IH]; intros r b; [reflexivity|]. destruct e; cbn [app remembers]; apply IH. Qed.
Lemma passes_good pde w4 l : pd_ok pde (open_page w4) -> Forall harmless l -> forall s, good pde s ->
  exists s', passes l s = At s' /\ good pde s' /\ kept s s' /\ (w4 = true -> granted s -> granted s') /\
    forall r, d4 (pm s) -> held w4 r s -> held w4 (remembers w4 r l) s'.
Proof.
  intros Ok. induction 1 as [|e l He Hl IH]; intros s G; cbn [passes].
  - exists s. split; [reflexivity|]. split; [exact G|]. split; [split; auto|]. auto.
  - destruct (happen_good pde w4 e s Ok G He) as (s1 & E1 & G1 & K1 & P1 & H1). rewrite E1.
    destruct (IH s1 G1) as (s2 & E2 & G2 & K2 & P2 & H2). exists s2. split; [exact E2|]. split; [exact G2|].
    split; [exact (kept_trans _ _ _ K1 K2)|]. split; [auto|]. intros r D Hh. change (e :: l) with ([e] ++ l). rewrite remembers_app.
    apply H2; [apply K1, D|]. apply H1; assumption.
Qed.

(** ** main *)
Lemma PDE_open : pd_ok PDE (open_page true).
Proof. split; [apply PDE_ok|]. intros i Hi. destruct (proj2 PDE_ok i Hi) as (A & B & C & D & E). repeat split; try assumption. rewrite D. unfold open_page. destruct (i =? 2); reflexivity. Qed.
Lemma PDE_shut : pd_ok PDE_main (open_page false).
Proof. split; [apply PDE_main_ok|]. intros i Hi. destruct (proj2 PDE_main_ok i Hi) as (A & B & C & D & E). repeat split; assumption. Qed.
Lemma both_bits x y : N.ldiff x 0x60 = y -> N.testbit x 5 = true -> N.testbit x 6 = true -> x = N.lor y 0x60.
Proof.
  intros <- H5 H6. apply N.bits_inj. intros b. rewrite N.lor_spec.
  destruct (N.eq_dec b 5) as [->|N5]; [rewrite H5; symmetry; apply orb_true_r|].
  destruct (N.eq_dec b 6) as [->|N6]; [rewrite H6; symmetry; apply orb_true_r|].
  rewrite clean_bit by assumption. pose proof (clean_bit 0x60 b N5 N6) as Z. change (N.ldiff 0x60 0x60) with 0 in Z. rewrite N.bits_0 in Z.
  rewrite <- Z. symmetry. apply orb_false_r.
Qed.
Lemma entry2 pde m : clean pde m -> d4 m -> T m 1026 = N.lor (pde 2) 0x60.
Proof. intros [_ C] [D5 D6]. apply both_bits; [|exact D5|exact D6]. rewrite C by reflexivity. reflexivity. Qed.
Lemma start_good s : used_tables (pm s) -> tlb_true s -> good PDE s /\ granted s.
Proof.
  intros [B U4 U3 U2] HT.
  assert (C : clean PDE (pm s)).
  { split; [exact B|]. intros j Hj. unfold tab, T. destruct (N.ltb_spec j 512) as [H|H]; [apply U4, H|].
    destruct (N.ltb_spec j 1024) as [H'|H'].
    - rewrite <- U3 by lia. f_equal. f_equal. lia.
    - rewrite <- U2 by lia. f_equal. f_equal. lia. }
  split.
  - split; [exact C|]. intros va c Hva Ht. destruct (HT va c Hva Ht) as (W & H5 & H6). rewrite (clean_walks PDE _ (pm s) va PDE_open C Hva) in W.
    destruct (expected_phys va) as [p|] eqn:E; [|discriminate]. injection W as Ep Ew Eu.
    unfold T. replace (0x101000 + 8 * (1024 + index va 21)) with (0x103000 + 8 * index va 21) by lia.
    split; [congruence|]. split; [|auto]. intros Hn. rewrite <- Ep in Hn. rewrite <- Ew. exact (open_at true va p Hva E Hn).
  - intros c Ht. destruct (HT cell c eq_refl Ht) as (W & _ & _). rewrite (clean_walks PDE _ (pm s) cell PDE_open C eq_refl), cell_phys in W.
    injection W as _ Ew _. rewrite <- Ew. reflexivity.
Qed.
Lemma pde_phys : expected_phys pde2 = Some 0x103010. Proof. reflexivity. Qed.
Lemma pages_apart : page_of cell <> page_of pde2. Proof. discriminate. Qed.
Lemma held_same open r s s' : tlb s' (page_of cell) = tlb s (page_of cell) -> held open r s -> held open r s'.
Proof. unfold held. intros ->. auto. Qed.
Lemma pde_open w4 s pde : good pde s -> wr_at (open_page w4) pde2 = true /\ forall c, tlb s (page_of pde2) = Some c -> writable (c_map c) = true.
Proof.
  intros G. split; [reflexivity|]. intros c Hc. destruct (go_tlb _ _ G pde2 c eq_refl Hc) as (H1 & H2 & _). rewrite pde_phys in H1. injection H1 as H1.
  apply H2. rewrite <- H1. unfold in_4m. lia.
Qed.
(** reading the entry *)
Lemma read_entry2 pde w4 s : pd_ok pde (open_page w4) -> good pde s -> d4 (pm s) ->
  exists s', LastModel.read64 pde2 s = At (N.lor (pde 2) 0x60, s') /\ good pde s' /\ d4 (pm s') /\
    (forall a, in_4m a -> pm s' a = pm s a) /\ tlb s' (page_of cell) = tlb s (page_of cell).
Proof.
  intros Ok G D. destruct (access_good pde w4 false pde2 s 0x103010 Ok G eq_refl pde_phys ltac:(discriminate)) as (s' & c & A & G' & Gr & O & _).
  unfold LastModel.read64. rewrite A. pose proof (grows_d4 _ _ Gr (proj1 (go_clean _ _ G)) D) as D'.
  change (quads (pm s') 0x103010) with (T (pm s') 1026). rewrite (entry2 pde (pm s') (go_clean _ _ G') D').
  exists s'. split; [reflexivity|]. split; [exact G'|]. split; [exact D'|]. split; [intros a Ha; apply Gr, not_in_4m_outside, Ha|].
  apply O, pages_apart.
Qed.
(** taking the right away *)
Lemma shut s : good PDE s -> d4 (pm s) ->
  exists s', LastModel.write64 pde2 0x4000e1 s = At s' /\ good PDE_main s' /\ d4 (pm s') /\
    (forall a, in_4m a -> pm s' a = pm s a) /\ tlb s' (page_of cell) = tlb s (page_of cell).
Proof.
  intros G D. destruct (access_good PDE true true pde2 s 0x103010 PDE_open G eq_refl pde_phys) as (s' & c & A & G' & Gr & O & _).
  { intros _. exact (pde_open true s PDE G). }
  unfold LastModel.write64. rewrite A. eexists. split; [reflexivity|]. cbn [pm tlb].
  set (m' := store (pm s') 0x103010 (le_bytes 8 0x4000e1)).
  assert (E1 : T m' 1026 = 0x4000e1) by (unfold T, m'; apply quads_same; reflexivity).
  assert (E2 : forall j, j <> 1026 -> T m' j = T (pm s') j).
  { intros j Hj. unfold T, m'. apply quads_other. rewrite le_bytes_length. lia. }
  pose proof (grows_d4 _ _ Gr (proj1 (go_clean _ _ G)) D) as D'. pose proof (entry2 PDE (pm s') (go_clean _ _ G') D') as E3.
  assert (D2 : d4 m') by (unfold d4; rewrite E1; split; reflexivity).
  split; [|split; [exact D2|split] ].
  - split; cbn [pm tlb].
    + split; [apply store_bytewise; [apply le_bytes_small|apply G']|]. intros j Hj. destruct (N.eq_dec j 1026) as [->|Hn].
      * rewrite E1. reflexivity.
      * rewrite E2 by exact Hn. rewrite (proj2 (go_clean _ _ G')) by exact Hj. unfold tab. destruct (j <? 512); [reflexivity|].
        destruct (N.ltb_spec j 1024); [reflexivity|]. unfold PDE_main. replace (j - 1024 =? 2) with false by lia. reflexivity.
    + intros va c' Hva Ht. destruct (go_tlb _ _ G' va c' Hva Ht) as (H1 & H2 & H3 & H4). split; [exact H1|]. split; [exact H2|].
      destruct (N.eq_dec (1024 + index va 21) 1026) as [Hi|Hi]; [rewrite Hi; split; [apply D2|intros _; apply D2]|].
      rewrite E2 by exact Hi. auto.
  - intros a Ha. unfold m'. rewrite store_outside by (rewrite le_bytes_length; unfold in_4m in Ha; lia). apply Gr, not_in_4m_outside, Ha.
  - apply O, pages_apart.
Qed.

Definition holds2 (s : proc) : Prop := holds_at (pm s) 0x400100 8 2.
Lemma holds2_kept s s' : (forall a, in_4m a -> pm s' a = pm s a) -> holds2 s -> holds2 s'.
Proof. intros H Hh i Hi. rewrite H by (unfold in_4m; lia). apply Hh, Hi. Qed.
(** The write to the page: with the right, or a fault. *)
Lemma first_write s : good PDE s -> granted s ->
  exists s', LastModel.write64 cell 2 s = At s' /\ good PDE s' /\ d4 (pm s') /\ holds2 s' /\ held true true s'.
Proof.
  intros G Hg. destruct (access_good PDE true true cell s 0x400100 PDE_open G eq_refl cell_phys) as (s' & c & A & G' & Gr & O & Tl & Wc & _).
  { intros _. split; [reflexivity|exact Hg]. }
  unfold LastModel.write64. rewrite A. destruct (poke_good PDE s' 0x400100 (le_bytes 8 2) G' (le_bytes_small 8 2)) as [G2 ET].
  { rewrite le_bytes_length. lia. }
  eexists. split; [reflexivity|]. split; [exact G2|]. destruct (Wc eq_refl) as (W1 & W2 & W3 & W4). cbn [pm].
  split; [unfold d4; rewrite ET by reflexivity; exact (conj W3 W4)|]. split; [exact (store_holds (pm s') 0x400100 8 2)|].
  unfold held. cbn [tlb]. rewrite Tl. auto.
Qed.
Lemma second_write s r : good PDE_main s -> held false r s ->
  if r then exists s', LastModel.write64 cell 2 s = At s' /\ good PDE_main s' /\ holds2 s'
  else LastModel.write64 cell 2 s = Fault 3.
Proof.
  intros G Hh. unfold held in Hh. unfold LastModel.write64, LastModel.access. destruct (tlb s (page_of cell)) as [c|] eqn:Et.
  - destruct r.
    + destruct Hh as [-> ->]. cbn [andb negb]. destruct (go_tlb _ _ G cell c eq_refl Et) as (E & _). rewrite cell_phys in E. injection E as E. rewrite <- E.
      destruct (poke_good PDE_main s 0x400100 (le_bytes 8 2) G (le_bytes_small 8 2)) as [G2 _]. { rewrite le_bytes_length. lia. }
      eexists. split; [reflexivity|]. split; [exact G2|]. exact (store_holds (pm s) 0x400100 8 2).
    + destruct Hh as [_ ->]. reflexivity.
  - subst r. unfold LastModel.lookup. rewrite (clean_walks PDE_main _ (pm s) cell PDE_shut (go_clean _ _ G) eq_refl), cell_phys. reflexivity.
Qed.
Definition final_ok (slipped : bool) (x : ending) : Prop :=
  match x with
  | Looped pde v s => slipped = true /\ pde = 0x4000e1 /\ v = 2 /\ good PDE_main s
  | Faulted pde code s => slipped = false /\ pde = 0x4000e1 /\ code = 3 /\ good PDE_main s
  end.
Lemma main_ends e0 e1 e2 e3 e4 e5 s : used_tables (pm s) -> tlb_true s -> Forall harmless (e0 ++ e1 ++ e2 ++ e3 ++ e4 ++ e5) ->
  exists x, main_end e0 e1 e2 e3 e4 e5 s = At x /\ final_ok (slips e1 e2 e3 e4) x.
Proof.
  intros U HT HF. rewrite !Forall_app in HF. destruct HF as (F0 & F1 & F2 & F3 & F4 & F5).
  destruct (start_good s U HT) as [G0 P0]. unfold main_end, protect.
  destruct (passes_good PDE true e0 PDE_open F0 s G0) as (s1 & E1 & G1 & _ & P1 & _). rewrite E1. cbn [then_].
  destruct (first_write s1 G1 (P1 eq_refl P0)) as (s2 & E2 & G2 & D2 & V2 & H2). rewrite E2. cbn [then_].
  destruct (passes_good PDE true e1 PDE_open F1 s2 G2) as (s3 & E3 & G3 & K3 & _ & H3). rewrite E3. cbn [then_]. specialize (H3 true D2 H2).
  destruct (read_entry2 PDE true s3 PDE_open G3 (proj2 K3 D2)) as (s4 & E4 & G4 & D4 & M4 & T4). rewrite E4. cbn [then_ fst snd].
  apply (held_same _ _ _ _ T4) in H3.
  destruct (passes_good PDE true e2 PDE_open F2 s4 G4) as (s5 & E5 & G5 & K5 & _ & H5). rewrite E5. cbn [then_]. specialize (H5 _ D4 H3).
  change (N.ldiff (N.lor (PDE 2) 0x60) 2) with 0x4000e1.
  destruct (shut s5 G5 (proj2 K5 D4)) as (s6 & E6 & G6 & D6 & M6 & T6). rewrite E6. cbn [then_].
  apply (held_same _ _ _ _ T6) in H5. rewrite <- remembers_app in H5. set (r := remembers true true (e1 ++ e2)) in *.
  assert (H6 : held false r s6).
  { unfold held in *. destruct (tlb s6 (page_of cell)); [|exact H5]. destruct r; [exact H5|]. destruct H5; discriminate. }
  destruct (passes_good PDE_main false e3 PDE_shut F3 s6 G6) as (s7 & E7 & G7 & K7 & _ & H7). rewrite E7. cbn [then_]. specialize (H7 _ D6 H6).
  destruct (read_entry2 PDE_main false s7 PDE_shut G7 (proj2 K7 D6)) as (s8 & E8 & G8 & D8 & M8 & T8). rewrite E8. cbn [then_ fst snd].
  apply (held_same _ _ _ _ T8) in H7. change (N.lor (PDE_main 2) 0x60) with 0x4000e1.
  destruct (passes_good PDE_main false e4 PDE_shut F4 s8 G8) as (s9 & E9 & G9 & K9 & _ & H9). rewrite E9. cbn [then_]. specialize (H9 _ D8 H7).
  rewrite <- remembers_app in H9. change (remembers false r (e3 ++ e4)) with (slips e1 e2 e3 e4) in H9.
  pose proof (second_write s9 _ G9 H9) as W. destruct (slips e1 e2 e3 e4).
  - destruct W as (s10 & E10 & G10 & V10). rewrite E10.
    destruct (passes_good PDE_main false e5 PDE_shut F5 s10 G10) as (s11 & E11 & G11 & K11 & _). rewrite E11. cbn [then_].
    destruct (access_good PDE_main false false cell s11 0x400100 PDE_shut G11 eq_refl cell_phys ltac:(discriminate)) as (s12 & c & A & G12 & Gr & _).
    unfold LastModel.read64. rewrite A. cbn [then_ fst snd].
    assert (quads (pm s12) 0x400100 = 2) as ->.
    { apply quads_holds; [|reflexivity]. apply (holds2_kept s11); [intros a Ha; apply Gr, not_in_4m_outside, Ha|]. apply (holds2_kept s10); [apply K11|exact V10]. }
    eexists. split; [reflexivity|]. cbn. auto.
  - rewrite W. eexists. split; [reflexivity|]. cbn. auto.
Qed.
(** Rights at the end: only the page at 4 MiB is read-only. *)
Lemma final_rights slipped x va : final_ok slipped x -> va < 2 ^ 64 ->
  walk_at PagingModel.cr3 (quads (pm match x with Looped _ _ s => s | Faulted _ _ s => s end)) va =
  match expected_phys va with
  | Some p => Some {| phys := p; user := false;
      writable := negb (match window_offset va with Some o => (0x400000 <=? o) && (o <? 0x600000) | None => false end) |}
  | None => None
  end.
Proof.
  intros F Hva. assert (G : good PDE_main match x with Looped _ _ s => s | Faulted _ _ s => s end) by (destruct x; apply F).
  rewrite (clean_walks PDE_main _ _ va PDE_shut (go_clean _ _ G) Hva). destruct (expected_phys va) as [p|] eqn:E; [|reflexivity].
  destruct (mapped_index va p Hva E) as (o & Eo & Ho & _). f_equal. f_equal. unfold wr_at. rewrite Eo. unfold open_page.
  destruct (N.eqb_spec (o / 0x200000) 2); lia.
Qed.
