(** Proofs about the constructor table and the write-protected page. *)
From stdpp Require Import list.
From Coq Require Import NArith Lia ZifyBool ZifyNat ZifyN.
From Verif Require Import Base PagingModel PagingSpec PagingProofs SwitchModel SwitchSpec SwitchProofs E820Model E820Proofs
  StartModel StartSpec.
Local Open Scope N_scope.

(** ** Constructors *)
Lemma store_app x : forall m a y, store m a (x ++ y) = store (store m a x) (a + N.of_nat (length x)) y.
Proof.
  induction x as [|b x IH]; intros m a y; cbn [app store length].
  - f_equal. lia.
  - rewrite IH. f_equal. lia.
Qed.
Definition table (fs : list N) : list N := concat (map (le_bytes 8) fs).
Lemma table_app x y : table (x ++ y) = table x ++ table y.
Proof. unfold table. rewrite map_app, concat_app. reflexivity. Qed.
Lemma table_length fs : N.of_nat (length (table fs)) = 8 * N.of_nat (length fs).
Proof.
  induction fs as [|f fs IH]; [reflexivity|]. change (f :: fs) with ([f] ++ fs).
  rewrite table_app, !app_length. unfold table at 1. cbn [map concat]. rewrite app_nil_r, le_bytes_length. cbn [length]. lia.
Qed.
Lemma align_same x : x mod 8 = 0 -> align_up x 8 = x.
Proof.
  intros H. unfold align_up. pose proof (N.div_mod x 8 ltac:(lia)).
  replace (x + 8 - 1) with (x / 8 * 8 + 7) by lia. rewrite N.div_add_l, (N.div_small 7 8), N.add_0_r by lia. lia.
Qed.
Lemma align_mod x : align_up x 8 mod 8 = 0.
Proof. unfold align_up. apply N.mod_mul. lia. Qed.
Lemma place_ctors arrays : forall dot m, dot mod 8 = 0 ->
  place (map ctor_piece arrays) dot m = (dot + 8 * N.of_nat (length (concat arrays)), store m dot (table (concat arrays))).
Proof.
  induction arrays as [|fs arrays IH]; intros dot m H; cbn [map place concat].
  - cbn. f_equal. lia.
  - unfold ctor_piece at 1 2 3 4. cbn [p_align p_bytes]. rewrite align_same by exact H.
    change (concat (map (le_bytes 8) fs)) with (table fs). rewrite table_length.
    rewrite IH. 2:{ rewrite (N.mul_comm 8), N.mod_add by lia. exact H. }
    rewrite table_app, store_app, table_length, app_length. f_equal. lia.
Qed.
Lemma place_ctors_end arrays : forall dot m, arrays <> [] -> fst (place (map ctor_piece arrays) dot m) mod 8 = 0.
Proof.
  destruct arrays as [|fs arrays]; intros dot m H; [congruence|]. cbn [map place]. unfold ctor_piece at 1 2 3 4. cbn [p_align p_bytes].
  assert ((align_up dot 8 + N.of_nat (length (concat (map (le_bytes 8) fs)))) mod 8 = 0) as E.
  { change (concat (map (le_bytes 8) fs)) with (table fs). rewrite table_length.
    rewrite (N.mul_comm 8), N.mod_add by lia. apply align_mod. }
  rewrite place_ctors by exact E. cbn [fst]. rewrite (N.mul_comm 8), N.mod_add by lia. exact E.
Qed.
Lemma table_load fs : forall m a i f, fs !! i = Some f -> f < 2 ^ 64 ->
  le_val (E820Model.load (store m a (table fs)) (a + 8 * N.of_nat i) 8) = f.
Proof.
  induction fs as [|g fs IH]; intros m a i f Hi Hf; [discriminate|].
  change (g :: fs) with ([g] ++ fs). rewrite table_app, store_app, table_length. cbn [length].
  destruct i as [|i].
  - cbn in Hi. injection Hi as ->. rewrite (load_ext 8 _ (store m a (table [f]))).
    2:{ intros x Hx. rewrite store_outside; [reflexivity|]. lia. }
    pose proof (load_store (table [f]) m a) as L. unfold table at 2 3 in L. cbn [map concat] in L.
    rewrite app_nil_r, le_bytes_length in L. replace (a + 8 * N.of_nat 0) with a by lia. rewrite L.
    apply le_val_bytes. exact Hf.
  - cbn in Hi. rewrite <- (IH (store m a (table [g])) (a + 8 * N.of_nat 1) i f Hi Hf). f_equal. f_equal. lia.
Qed.
Lemma run_table is_ctor m fs : forall a fuel, (forall i f, fs !! i = Some f -> le_val (E820Model.load m (a + 8 * N.of_nat i) 8) = f) ->
  Forall (fun f => is_ctor f = true) fs -> a + 8 * N.of_nat (length fs) < 2 ^ 64 -> (length fs <= fuel)%nat ->
  run_ctors fuel is_ctor m a (a + 8 * N.of_nat (length fs)) = Ok fs.
Proof.
  induction fs as [|f fs IH]; intros a fuel H HF Ha Hf.
  - destruct fuel; cbn [run_ctors length]; replace (a =? a + 8 * N.of_nat 0) with true by lia; reflexivity.
  - destruct fuel as [|fuel]; [cbn in Hf; lia|]. cbn [run_ctors length] in *.
    replace (a =? a + 8 * N.of_nat (S (length fs))) with false by lia.
    pose proof (H 0%nat f eq_refl) as E. replace (a + 8 * N.of_nat 0) with a in E by lia. rewrite E.
    inversion HF as [|? ? F1 F2]; subst. rewrite F1. rewrite N.mod_small by lia.
    replace (a + 8 * N.of_nat (S (length fs))) with (a + 8 + 8 * N.of_nat (length fs)) by lia.
    rewrite IH; [reflexivity| |exact F2|lia|lia].
    intros i g Hg. rewrite <- (H (S i) g Hg). f_equal. f_equal. lia.
Qed.
Lemma link_aligned data arrays prio dot m : fst (place data dot m) mod 8 = 0 ->
  link_data data arrays prio dot m =
  (fst (place data dot m), fst (place data dot m) + 8 * N.of_nat (length (concat arrays ++ concat prio)),
   store (snd (place data dot m)) (fst (place data dot m)) (table (concat arrays ++ concat prio))).
Proof.
  intros H. unfold link_data. destruct (place data dot m) as [start m1]. cbn [fst snd] in *.
  rewrite place_ctors by exact H. rewrite place_ctors.
  2:{ rewrite (N.mul_comm 8), N.mod_add by lia. exact H. }
  rewrite table_app, store_app, table_length, app_length. f_equal. f_equal. lia.
Qed.
Theorem ctors_run data arrays prio dot m is_ctor fuel start e m' :
  link_data data arrays prio dot m = (start, e, m') -> start mod 8 = 0 -> e < 2 ^ 64 ->
  Forall (fun f => is_ctor f = true /\ f < 2 ^ 64) (concat arrays ++ concat prio) ->
  (length (concat arrays ++ concat prio) <= fuel)%nat ->
  run_ctors fuel is_ctor m' start e = Ok (concat arrays ++ concat prio).
Proof.
  intros L H He HF Hf.
  assert (start = fst (place data dot m)) as Es.
  { unfold link_data in L. destruct (place data dot m) as [st m1]. destruct (place (map ctor_piece arrays) st m1) as [e1 m2].
    destruct (place (map ctor_piece prio) e1 m2). cbn. congruence. }
  subst start. rewrite link_aligned in L by exact H. injection L as <- <-.
  apply run_table.
  - intros i f Hi. apply table_load; [exact Hi|]. rewrite Forall_lookup in HF. apply (HF i f Hi).
  - eapply Forall_impl; [exact HF|]. cbn. tauto.
  - exact He.
  - exact Hf.
Qed.
Lemma run_mod fuel : forall is_ctor m i e, i mod 8 <> e mod 8 -> forall fs, run_ctors fuel is_ctor m i e <> Ok fs.
Proof.
  induction fuel as [|fuel IH]; intros is_ctor m i e H fs; cbn [run_ctors].
  - destruct (N.eqb_spec i e); [congruence|discriminate].
  - destruct (N.eqb_spec i e); [congruence|]. destruct (is_ctor _); [|discriminate].
    assert (((i + 8) mod 2 ^ 64) mod 8 = i mod 8) as E.
    { change (2 ^ 64) with (8 * 2 ^ 61). rewrite N.mod_mul_r by lia. rewrite N.mul_comm, N.mod_add, N.mod_mod by lia.
      replace (i + 8) with (i + 1 * 8) by lia. apply N.mod_add. lia. }
    specialize (IH is_ctor m ((i + 8) mod 2 ^ 64) e). rewrite E in IH. specialize (IH H).
    destruct (run_ctors fuel is_ctor m ((i + 8) mod 2 ^ 64) e) as [fs'| |]; cbn; [|discriminate..].
    exfalso. exact (IH fs' eq_refl).
Qed.
Theorem ctors_misaligned data arrays prio dot m start e m' :
  link_data data arrays prio dot m = (start, e, m') -> start mod 8 <> 0 -> arrays ++ prio <> [] ->
  forall fuel is_ctor m2 fs, run_ctors fuel is_ctor m2 start e <> Ok fs.
Proof.
  intros L H Hn fuel is_ctor m2. apply run_mod.
  assert (e mod 8 = 0) as ->; [|exact H].
  unfold link_data in L. destruct (place data dot m) as [st m1] eqn:P1.
  destruct (place (map ctor_piece arrays) st m1) as [e1 m3] eqn:P2. destruct (place (map ctor_piece prio) e1 m3) as [e2 m4] eqn:P3.
  injection L as <- <- <-. destruct prio as [|f prio].
  - cbn in P3. injection P3 as <- <-. rewrite app_nil_r in Hn. pose proof (place_ctors_end arrays st m1 Hn) as E.
    rewrite P2 in E. exact E.
  - pose proof (place_ctors_end (f :: prio) e1 m3 ltac:(discriminate)) as E. rewrite P3 in E. exact E.
Qed.
Lemma priority_late : exists data arrays prio dot m start e m' fs, link_data data arrays prio dot m = (start, e, m') /\
  run_ctors 10 (fun _ => true) m' start e = Ok fs /\ fs <> construction_order arrays prio.
Proof.
  exists [], [[0x1000]], [[0x2000]], 0, (fun _ => 0). do 4 eexists. split; [reflexivity|].
  split; [vm_compute; reflexivity|]. discriminate.
Qed.

(** ** The write-protected page *)
Record has_tables (pde : N -> N) (m : N -> N) : Prop := {
  ht_4 : forall i, i < 512 -> holds_at m (0x101000 + 8 * i) 8 (PML4 i);
  ht_3 : forall i, i < 512 -> holds_at m (0x102000 + 8 * i) 8 (PDPTE i);
  ht_2 : forall i, i < 512 -> holds_at m (0x103000 + 8 * i) 8 (pde i)
}.
Lemma walk_same pde wr m va : pd_ok pde wr -> (forall i, pde i < 2 ^ 64) -> has_tables pde m ->
  walk (quads m) va = walk (table_mem pde (quads m)) va.
Proof.
  intros Ok P64 T. unfold walk.
  rewrite mem4.
  assert (quads m (PagingModel.cr3 + 8 * index va 39) = PML4 (index va 39)) as ->.
  { apply quads_holds; [apply T, index_lt|apply PML4_64]. }
  destruct (canonical va); [|reflexivity]. cbn [negb].
  destruct (present (PML4 (index va 39))) eqn:P4; [|reflexivity]. cbn [negb].
  assert (PML4 (index va 39) = 0x102007) as ->.
  { unfold PML4 in *. destruct ((index va 39 =? 0) || (index va 39 =? 256)); [reflexivity|discriminate]. }
  rewrite mem3.
  assert (quads m (frame 0x102007 12 + 8 * index va 30) = PDPTE (index va 30)) as ->.
  { rewrite frame_4. apply quads_holds; [apply T, index_lt|apply PDPTE_64]. }
  destruct (present (PDPTE (index va 30))) eqn:P3; [|reflexivity]. cbn [negb].
  assert (PDPTE (index va 30) = 0x103003) as ->.
  { unfold PDPTE in *. destruct (index va 30 =? 0); [reflexivity|discriminate]. }
  rewrite large_3. rewrite mem2.
  assert (quads m (frame 0x103003 12 + 8 * index va 21) = pde (index va 21)) as ->.
  { rewrite frame_3. apply quads_holds; [apply T, index_lt|apply P64]. }
  destruct (present (pde (index va 21))) eqn:P2; [|reflexivity]. cbn [negb].
  assert (N.testbit (pde (index va 21)) 7 = true) as ->; [|reflexivity].
  destruct (N.ltb_spec (index va 21) 13) as [H|H]; [apply Ok, H|].
  rewrite (proj1 Ok) in P2 by exact H. discriminate.
Qed.
Lemma boot_has m : boot_tables m -> has_tables PDE m.
Proof. intros T. split; apply T. Qed.
Lemma le_bytes_nth n : forall v i, i < N.of_nat n -> nth (N.to_nat i) (le_bytes n v) 0 = v / 256 ^ i mod 256.
Proof.
  induction n as [|n IH]; intros v i Hi; [lia|]. cbn [le_bytes].
  destruct (N.to_nat i) as [|k] eqn:E; cbn [nth].
  - replace i with 0 by lia. rewrite N.pow_0_r, N.div_1_r. reflexivity.
  - replace k with (N.to_nat (i - 1)) by lia. rewrite IH by lia.
    rewrite N.div_div by (try apply N.pow_nonzero; lia). f_equal. f_equal.
    replace i with (N.succ (i - 1)) at 2 by lia. rewrite N.pow_succ_r'. reflexivity.
Qed.
Lemma store_nth bs : forall m a i, i < N.of_nat (length bs) -> store m a bs (a + i) = nth (N.to_nat i) bs 0.
Proof.
  induction bs as [|b bs IH]; intros m a i Hi; [cbn in Hi; lia|]. cbn [store length] in *.
  destruct (N.to_nat i) as [|k] eqn:E; cbn [nth].
  - rewrite store_outside by lia. replace (a + i =? a) with true by lia. reflexivity.
  - replace (a + i) with (a + 1 + (i - 1)) by lia. rewrite IH by lia. f_equal. lia.
Qed.
Lemma store_holds m a n v : holds_at (store m a (le_bytes n v)) a (N.of_nat n) v.
Proof. intros i Hi. rewrite store_nth by (rewrite le_bytes_length; lia). apply le_bytes_nth, Hi. Qed.
Lemma store_other m a b n k v x : b + n <= a \/ a + N.of_nat k <= b -> holds_at m b n v -> holds_at (store m a (le_bytes k x)) b n v.
Proof. intros H Hh i Hi. rewrite store_outside; [apply Hh, Hi|]. rewrite le_bytes_length. lia. Qed.
Lemma PDE_main_64 i : PDE_main i < 2 ^ 64.
Proof. unfold PDE_main. destruct (i =? 2); [reflexivity|apply PDE_64]. Qed.
Lemma tables_cell m v : has_tables PDE m -> has_tables PDE (store m 0x400100 (le_bytes 8 v)).
Proof. intros T. split; intros i Hi; (apply store_other; [lia|apply T, Hi]). Qed.
Lemma tables_main m : has_tables PDE m -> has_tables PDE_main (store m 0x103010 (le_bytes 8 (PDE_main 2))).
Proof.
  intros T. split; intros i Hi; [apply store_other; [lia|apply T, Hi]..|].
  destruct (N.eq_dec i 2) as [->|Hn].
  - exact (store_holds m 0x103010 8 (PDE_main 2)).
  - apply store_other; [lia|]. unfold PDE_main. replace (i =? 2) with false by lia. apply T, Hi.
Qed.
Lemma walk_boot m va : has_tables PDE m -> va < 2 ^ 64 -> walk_at PagingModel.cr3 (quads m) va =
  match expected_phys va with Some p => Some {| phys := p; writable := true; user := false |} | None => None end.
Proof. intros T H. change (walk_at PagingModel.cr3 (quads m) va) with (walk (quads m) va).
  rewrite (walk_same PDE _ m va PDE_ok PDE_64 T). apply (boot_walk_spec (quads m) va H). Qed.
Lemma walk_main m va : has_tables PDE_main m -> va < 2 ^ 64 -> walk_at PagingModel.cr3 (quads m) va =
  match expected_phys va with
  | Some p => Some {| phys := p; user := false;
      writable := negb (match window_offset va with Some o => (0x400000 <=? o) && (o <? 0x600000) | None => false end) |}
  | None => None
  end.
Proof.
  intros T H. change (walk_at PagingModel.cr3 (quads m) va) with (walk (quads m) va).
  rewrite (walk_same PDE_main _ m va PDE_main_ok PDE_main_64 T).
  pose proof (main_walk_spec (quads m) va H) as E. rewrite boot_walk_spec in E by exact H. unfold main_walk in E. rewrite E.
  destruct (expected_phys va); reflexivity.
Qed.

Definition c_page : mapping := {| phys := 0x400000; writable := true; user := false |}.
Definition t_page : mapping := {| phys := 0; writable := true; user := false |}.
Definition cached (x : option mapping) (p : mapping) : Prop := x = None \/ x = Some p.
Lemma access_ok keep w va s p o : has_tables PDE (m_mem s) -> va < 2 ^ 64 -> expected_phys va = Some o -> 
  cached (m_tlb s (page_of va)) p -> writable p = true -> user p = false -> phys p + va mod 2 ^ 21 = o ->
  exists s', access keep w va s = Go (o, s') /\ m_mem s' = m_mem s /\ m_tlb s' (page_of va) = Some p /\
    forall pg, pg <> page_of va -> m_tlb s' pg = if keep pg then m_tlb s pg else None.
Proof.
  intros T Hva He Hc Hw Hu Hp. unfold access.
  destruct (if keep (page_of va) then m_tlb s (page_of va) else None) as [q|] eqn:E.
  - assert (q = p) as ->. { destruct Hc as [C|C]; rewrite C in E; destruct (keep _); congruence. }
    rewrite Hw, andb_false_r, Hp. eexists. split; [reflexivity|]. cbn [m_mem m_tlb]. auto.
  - rewrite walk_boot by assumption. rewrite He. cbn [writable negb phys user]. rewrite andb_false_r. eexists. split; [reflexivity|].
    cbn [m_mem m_tlb]. split; [reflexivity|]. rewrite N.eqb_refl. split.
    + f_equal. destruct p as [pp pw pu]. cbn in *. subst. f_equal. lia.
    + intros pg Hpg. replace (pg =? page_of va) with false by lia. reflexivity.
Qed.
Lemma cell_page : page_of cell = 0x7fffc000002. Proof. reflexivity. Qed.
Lemma pde_page : page_of pde2 = 0x7fffc000000. Proof. reflexivity. Qed.

(** consistent caches, on the two pages that matter *)
Lemma tlb_two s : has_tables PDE (m_mem s) -> tlb_ok s -> cached (m_tlb s (page_of cell)) c_page /\ cached (m_tlb s (page_of pde2)) t_page.
Proof.
  intros T H. split.
  - destruct (m_tlb s (page_of cell)) as [p|] eqn:E; [right|left; reflexivity].
    pose proof (H cell p ltac:(reflexivity) E) as W. rewrite walk_boot in W by (try exact T; reflexivity).
    destruct p as [a b c]. cbn [phys writable user] in W. change (expected_phys cell) with (Some 0x400100) in W.
    change (cell mod 2 ^ 21) with 0x100 in W. injection W as E1 E2 E3. unfold c_page. f_equal. subst. f_equal. lia.
  - destruct (m_tlb s (page_of pde2)) as [p|] eqn:E; [right|left; reflexivity].
    pose proof (H pde2 p ltac:(reflexivity) E) as W. rewrite walk_boot in W by (try exact T; reflexivity).
    destruct p as [a b c]. cbn [phys writable user] in W. change (expected_phys pde2) with (Some 0x103010) in W.
    change (pde2 mod 2 ^ 21) with 0x103010 in W. injection W as E1 E2 E3. unfold t_page. f_equal. subst. f_equal. lia.
Qed.
Lemma protect_runs k1 k2 k3 s : has_tables PDE (m_mem s) -> tlb_ok s ->
  exists s', protect_page k1 k2 k3 s = Go s' /\ has_tables PDE_main (m_mem s') /\
    m_mem s' = store (store (m_mem s) 0x400100 (le_bytes 8 2)) 0x103010 (le_bytes 8 (PDE_main 2)) /\
    m_tlb s' (page_of cell) = if k2 (page_of cell) && k3 (page_of cell) then Some c_page else None.
Proof.
  intros T H. destruct (tlb_two s T H) as [C1 C2].
  destruct (access_ok k1 true cell s c_page 0x400100 T eq_refl eq_refl C1 eq_refl eq_refl eq_refl) as (s1 & E1 & M1 & P1 & O1).
  unfold protect_page, write64 at 1. rewrite E1. cbn [rbind fst snd].
  set (s2 := {| m_mem := store (m_mem s1) 0x400100 (le_bytes 8 2); m_tlb := m_tlb s1 |}).
  assert (has_tables PDE (m_mem s2)) as T2 by (cbn [m_mem s2]; rewrite M1; apply tables_cell, T).
  assert (cached (m_tlb s2 (page_of pde2)) t_page) as C3.
  { cbn [m_tlb s2]. rewrite O1 by (rewrite cell_page, pde_page; discriminate). destruct (k1 _); [exact C2|left; reflexivity]. }
  destruct (access_ok k2 false pde2 s2 t_page 0x103010 T2 eq_refl eq_refl C3 eq_refl eq_refl eq_refl) as (s3 & E3 & M3 & P3 & O3).
  unfold read64. rewrite E3. cbn [rbind fst snd].
  assert (quads (m_mem s3) 0x103010 = PDE 2) as ->.
  { rewrite M3. apply quads_holds; [exact (ht_2 _ _ T2 2 eq_refl)|apply PDE_64]. }
  change (N.ldiff (PDE 2) 2) with (PDE_main 2).
  assert (has_tables PDE (m_mem s3)) as T3 by (rewrite M3; exact T2).
  destruct (access_ok k3 true pde2 s3 t_page 0x103010 T3 eq_refl eq_refl (or_intror P3) eq_refl eq_refl eq_refl)
    as (s4 & E4 & M4 & P4 & O4).
  unfold write64. rewrite E4. cbn [rbind fst snd]. eexists. split; [reflexivity|]. cbn [m_mem m_tlb].
  rewrite M4, M3. split; [apply tables_main, T2|]. split; [cbn [m_mem s2]; rewrite M1; reflexivity|].
  rewrite O4 by (rewrite cell_page, pde_page; discriminate).
  rewrite O3 by (rewrite cell_page, pde_page; discriminate). cbn [m_tlb s2]. rewrite P1.
  destruct (k2 _), (k3 _); reflexivity.
Qed.
Theorem page_protected k1 k2 k3 s : boot_tables (m_mem s) -> tlb_ok s ->
  exists s', protect_page k1 k2 k3 s = Go s' /\
    forall va, va < 2 ^ 64 -> walk_at PagingModel.cr3 (quads (m_mem s')) va =
      match expected_phys va with
      | Some p => Some {| phys := p; user := false;
          writable := negb (match window_offset va with Some o => (0x400000 <=? o) && (o <? 0x600000) | None => false end) |}
      | None => None
      end.
Proof.
  intros T H. destruct (protect_runs k1 k2 k3 s (boot_has _ T) H) as (s' & E & T' & _ & _). exists s'. split; [exact E|].
  intros va Hva. apply walk_main; assumption.
Qed.
Theorem second_write k1 k2 k3 k4 s : boot_tables (m_mem s) -> tlb_ok s ->
  if k2 (page_of cell) && k3 (page_of cell) && k4 (page_of cell)
  then exists s', main_writes k1 k2 k3 k4 s = Go s' /\ load (m_mem s') 0x400100 8 = [2; 0; 0; 0; 0; 0; 0; 0]
  else main_writes k1 k2 k3 k4 s = Stop PF.
Proof.
  intros T H. destruct (protect_runs k1 k2 k3 s (boot_has _ T) H) as (s' & E & T' & _ & P).
  unfold main_writes. rewrite E. cbn [rbind]. unfold write64, access.
  destruct (k2 (page_of cell) && k3 (page_of cell)) eqn:K.
  - cbn [andb]. destruct (k4 (page_of cell)) eqn:K4; rewrite P || idtac.
    + eexists. split; reflexivity.
    + rewrite walk_main by (try exact T'; reflexivity). reflexivity.
  - cbn [andb]. rewrite P. replace (if k4 (page_of cell) then None else None) with (@None mapping) by (destruct (k4 _); reflexivity).
    rewrite walk_main by (try exact T'; reflexivity). reflexivity.
Qed.
Lemma still_writable : forall s, boot_tables (m_mem s) -> tlb_ok s ->
  exists k s', main_writes k k k k s = Go s'.
Proof. intros s T H. exists (fun _ => true). destruct (second_write (fun _ => true) (fun _ => true) (fun _ => true) (fun _ => true) s T H) as (s' & E & _). exists s'. exact E. Qed.
