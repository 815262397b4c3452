(** Proofs about accessed bits, dirty bits and cached translations while main protects its page. *)
From stdpp Require Import list.
From Coq Require Import NArith Lia ZifyBool ZifyNat ZifyN.
From Verif Require Import Base PagingModel PagingSpec PagingProofs SwitchModel SwitchSpec SwitchProofs E820Model E820Proofs
  StartModel StartSpec StartProofs LastModel LastSpec.
Local Open Scope N_scope.

(** ** Bits *)
Lemma log_lt x n : 0 < n -> x < 2 ^ n <-> N.log2 x < n.
Proof.
  intros Hn. destruct (N.eq_dec x 0) as [->|H].
  - split; intros _; [exact Hn|]. apply N.neq_0_lt_0, N.pow_nonzero. discriminate.
  - apply N.log2_lt_pow2. lia.
Qed.
Lemma lor_64 x y : x < 2 ^ 64 -> y < 2 ^ 64 -> N.lor x y < 2 ^ 64.
Proof. rewrite !log_lt by reflexivity. rewrite N.log2_lor. lia. Qed.
Lemma clean_bit x b : b <> 5 -> b <> 6 -> N.testbit (N.ldiff x 0x60) b = N.testbit x b.
Proof.
  intros H5 H6. rewrite N.ldiff_spec. replace (N.testbit 0x60 b) with false; [apply andb_true_r|].
  destruct (N.ltb_spec b 8) as [H|H]; [|symmetry; apply N.bits_above_log2; exact (N.lt_le_trans 6 8 b eq_refl H)].
  assert (b = 0 \/ b = 1 \/ b = 2 \/ b = 3 \/ b = 4 \/ b = 7) as E by lia.
  repeat (destruct E as [->|E]; [reflexivity|]). subst. reflexivity.
Qed.
Lemma clean_frame x n : 7 <= n -> frame (N.ldiff x 0x60) n = frame x n.
Proof.
  intros H. unfold frame. f_equal. apply N.bits_inj. intros b. rewrite !N.shiftr_spec', !N.land_spec, clean_bit by lia. reflexivity.
Qed.
Lemma clean_present x : present (N.ldiff x 0x60) = present x.
Proof. apply clean_bit; discriminate. Qed.
Lemma clean_allow p x : allow p (N.ldiff x 0x60) = allow p x.
Proof. unfold allow. rewrite !clean_bit by discriminate. reflexivity. Qed.
Lemma clean_lor x b : b = 0x20 \/ b = 0x60 -> N.ldiff (N.lor x b) 0x60 = N.ldiff x 0x60.
Proof. intros H. apply N.bits_inj. intros i. rewrite !N.ldiff_spec, N.lor_spec.
  destruct (N.testbit 0x60 i) eqn:E; [rewrite !andb_false_r; reflexivity|]. rewrite !andb_true_r.
  replace (N.testbit b i) with false; [apply orb_false_r|]. destruct H as [->| ->]; [|symmetry; exact E].
  assert (N.ldiff 0x20 0x60 = 0) as D by reflexivity. symmetry. apply (f_equal (fun z => N.testbit z i)) in D.
  rewrite N.ldiff_spec, E, andb_true_r, N.bits_0 in D. exact D.
Qed.
(** the walk does not look at the two bits *)
Lemma walk_clean m va : walk m va = walk (fun a => N.ldiff (m a) 0x60) va.
Proof.
  unfold walk. cbv beta zeta.
  rewrite !clean_frame, !clean_present, !clean_allow, !clean_bit by discriminate. reflexivity.
Qed.

(** ** Memory *)
Definition bytewise (m : N -> N) : Prop := forall a, m a < 256.
Lemma rdp_lt m n : bytewise m -> forall a, rdp m a n < 256 ^ N.of_nat n.
Proof.
  intros H. induction n as [|n IH]; intros a; [reflexivity|]. cbn [rdp]. replace (N.of_nat (S n)) with (N.succ (N.of_nat n)) by lia.
  rewrite N.pow_succ_r'. specialize (IH (a + 1)). specialize (H a). nia.
Qed.
Lemma quads_lt m a : bytewise m -> quads m a < 2 ^ 64.
Proof. intros H. exact (rdp_lt m 8 H a). Qed.
Lemma quads_same m a v : v < 2 ^ 64 -> quads (store m a (le_bytes 8 v)) a = v.
Proof. intros H. apply quads_holds; [|exact H]. exact (store_holds m a 8 v). Qed.
Lemma quads_other m a bs b : b + 8 <= a \/ a + N.of_nat (length bs) <= b -> quads (store m a bs) b = quads m b.
Proof. intros H. unfold quads. apply rdp_ext. intros i Hi. apply store_outside. lia. Qed.
Lemma store_bytewise bs : Forall (fun b => b < 256) bs -> forall m a, bytewise m -> bytewise (store m a bs).
Proof.
  induction 1 as [|b bs Hb Hbs IH]; intros m a Hm; cbn [store]; [exact Hm|]. apply IH.
  intros x. destruct (x =? a); [exact Hb|apply Hm].
Qed.
Lemma le_bytes_small n : forall v, Forall (fun b => b < 256) (le_bytes n v).
Proof. induction n as [|n IH]; intros v; cbn [le_bytes]; constructor; [apply N.mod_lt; discriminate|apply IH]. Qed.

(** ** The tables as one array *)
Definition T (m : N -> N) (j : N) : N := quads m (0x101000 + 8 * j).
Definition tab (pde : N -> N) (j : N) : N := if j <? 512 then PML4 j else if j <? 1024 then PDPTE (j - 512) else pde (j - 1024).
Definition clean (pde : N -> N) (m : N -> N) : Prop := bytewise m /\ forall j, j < 1536 -> N.ldiff (T m j) 0x60 = tab pde j.
Definition outside (a : N) : Prop := ~ 0x101000 <= a < 0x104000.
(** [m'] differs from [m] only by accessed and dirty bits set in the tables *)
Record grows (m m' : N -> N) : Prop := {
  gr_byte : bytewise m -> bytewise m';
  gr_out : forall a, outside a -> m' a = m a;
  gr_clean : bytewise m -> forall j, j < 1536 -> N.ldiff (T m' j) 0x60 = N.ldiff (T m j) 0x60;
  gr_bits : bytewise m -> forall j b, j < 1536 -> N.testbit (T m j) b = true -> N.testbit (T m' j) b = true
}.
Lemma grows_refl m : grows m m. Proof. split; auto. Qed.
Lemma grows_trans m1 m2 m3 : grows m1 m2 -> grows m2 m3 -> grows m1 m3.
Proof.
  intros [A1 A2 A3 A4] [B1 B2 B3 B4]. split; [auto|..].
  - intros a H. rewrite B2, A2 by exact H. reflexivity.
  - intros H j Hj. rewrite B3, A3 by auto. reflexivity.
  - intros H j b Hj Hb. apply B4; auto.
Qed.
Lemma grows_clean pde m m' : grows m m' -> clean pde m -> clean pde m'.
Proof. intros G [B C]. split; [apply G, B|]. intros j Hj. rewrite (gr_clean _ _ G B) by exact Hj. apply C, Hj. Qed.
Lemma T_mark_same m j b : bytewise m -> b < 2 ^ 64 -> T (mark b (0x101000 + 8 * j) m) j = N.lor (T m j) b.
Proof. intros H Hb. unfold T, mark. apply quads_same, lor_64; [apply quads_lt, H|exact Hb]. Qed.
Lemma T_mark_other m j k b : j <> k -> T (mark b (0x101000 + 8 * j) m) k = T m k.
Proof. intros H. unfold T, mark. apply quads_other. rewrite le_bytes_length. lia. Qed.
Lemma mark_bits b : b = 0x20 \/ b = 0x60 -> b < 2 ^ 64. Proof. intros [->| ->]; reflexivity. Qed.
Lemma mark_grows m j b : j < 1536 -> b = 0x20 \/ b = 0x60 -> grows m (mark b (0x101000 + 8 * j) m).
Proof.
  intros Hj Hb. split.
  - intros H. apply store_bytewise; [apply le_bytes_small|exact H].
  - intros a Ha. unfold mark, outside in *. apply store_outside. rewrite le_bytes_length. lia.
  - intros H k Hk. destruct (N.eq_dec j k) as [->|Hn].
    + rewrite T_mark_same by (try exact H; apply mark_bits, Hb). apply clean_lor, Hb.
    + rewrite T_mark_other by exact Hn. reflexivity.
  - intros H k i Hk Hi. destruct (N.eq_dec j k) as [->|Hn].
    + rewrite T_mark_same by (try exact H; apply mark_bits, Hb). rewrite N.lor_spec, Hi. reflexivity.
    + rewrite T_mark_other by exact Hn. exact Hi.
Qed.

(** ** Translations *)
Lemma clean_walks pde wr m va : pd_ok pde wr -> clean pde m -> va < 2 ^ 64 ->
  walk_at PagingModel.cr3 (quads m) va =
  match expected_phys va with Some p => Some {| phys := p; writable := wr_at wr va; user := false |} | None => None end.
Proof.
  intros Ok [_ C] Hva. rewrite <- (walk_spec pde wr (fun a => N.ldiff (quads m a) 0x60) va Ok Hva).
  change (walk_at PagingModel.cr3 (quads m) va) with (walk (quads m) va). rewrite walk_clean.
  set (g := fun a => N.ldiff (quads m a) 0x60).
  assert (G4 : forall i, i < 512 -> g (0x101000 + 8 * i) = PML4 i).
  { intros i Hi. unfold g. change (quads m (0x101000 + 8 * i)) with (T m i). rewrite C by lia. unfold tab. replace (i <? 512) with true by lia. reflexivity. }
  assert (G3 : forall i, i < 512 -> g (0x102000 + 8 * i) = PDPTE i).
  { intros i Hi. unfold g. replace (0x102000 + 8 * i) with (0x101000 + 8 * (512 + i)) by lia. change (quads m (0x101000 + 8 * (512 + i))) with (T m (512 + i)).
    rewrite C by lia. unfold tab. replace (512 + i <? 512) with false by lia. replace (512 + i <? 1024) with true by lia. f_equal. lia. }
  assert (G2 : forall i, i < 512 -> g (0x103000 + 8 * i) = pde i).
  { intros i Hi. unfold g. replace (0x103000 + 8 * i) with (0x101000 + 8 * (1024 + i)) by lia. change (quads m (0x101000 + 8 * (1024 + i))) with (T m (1024 + i)).
    rewrite C by lia. unfold tab. replace (1024 + i <? 512) with false by lia. replace (1024 + i <? 1024) with false by lia. f_equal. lia. }
  clearbody g. clear C. unfold walk. rewrite mem4.
  assert (g (PagingModel.cr3 + 8 * index va 39) = PML4 (index va 39)) as -> by apply G4, index_lt.
  destruct (canonical va); [|reflexivity]. cbn [negb].
  destruct (present (PML4 (index va 39))) eqn:P4; [|reflexivity]. cbn [negb].
  assert (PML4 (index va 39) = 0x102007) as ->.
  { unfold PML4 in *. destruct ((index va 39 =? 0) || (index va 39 =? 256)); [reflexivity|discriminate]. }
  rewrite mem3.
  assert (g (frame 0x102007 12 + 8 * index va 30) = PDPTE (index va 30)) as -> by (rewrite frame_4; apply G3, index_lt).
  destruct (present (PDPTE (index va 30))) eqn:P3; [|reflexivity]. cbn [negb].
  assert (PDPTE (index va 30) = 0x103003) as ->.
  { unfold PDPTE in *. destruct (index va 30 =? 0); [reflexivity|discriminate]. }
  rewrite large_3. rewrite mem2.
  assert (g (frame 0x103003 12 + 8 * index va 21) = pde (index va 21)) as -> by (rewrite frame_3; apply G2, index_lt).
  destruct (present (pde (index va 21))) eqn:P2; [|reflexivity]. cbn [negb].
  assert (N.testbit (pde (index va 21)) 7 = true) as ->; [|reflexivity].
  destruct (N.ltb_spec (index va 21) 13) as [H|H]; [apply Ok, H|].
  rewrite (proj1 Ok) in P2 by exact H. discriminate.
Qed.
Lemma mapped_index va p : va < 2 ^ 64 -> expected_phys va = Some p ->
  exists o, window_offset va = Some o /\ o < 0x1a00000 /\ PML4 (index va 39) = 0x102007 /\ index va 30 = 0 /\ index va 21 = o / 2097152 /\ index va 21 < 13.
Proof.
  intros Hva E. unfold expected_phys in E. destruct (window_offset va) as [o|] eqn:Eo; [|discriminate].
  destruct (window_index va o Hva Eo) as (_ & H4 & _ & E30 & E21 & _). exists o. split; [reflexivity|].
  assert (o < 0x1a00000) as Ho by (destruct (o <? 0xa00000) eqn:E1; [lia|]; destruct (o <? 0x1a00000) eqn:E2; [lia|discriminate]).
  split; [exact Ho|]. split; [destruct H4 as [-> | ->]; reflexivity|].
  rewrite E30, E21. split; [lia|]. split; [apply N.mod_small; lia|]. rewrite N.mod_small by lia. lia.
Qed.
Lemma clean_path pde wr m va p : pd_ok pde wr -> clean pde m -> va < 2 ^ 64 -> expected_phys va = Some p ->
  path (quads m) va = [0x101000 + 8 * index va 39; 0x101000 + 8 * 512; 0x101000 + 8 * (1024 + index va 21)].
Proof.
  intros Ok [_ C] Hva E. destruct (mapped_index va p Hva E) as (o & _ & _ & E4 & E3 & _ & H13).
  pose proof (index_lt va 39) as L39. unfold path.
  assert (frame (quads m (PagingModel.cr3 + 8 * index va 39)) 12 = 0x102000) as ->.
  { rewrite <- clean_frame by discriminate. change (quads m (PagingModel.cr3 + 8 * index va 39)) with (T m (index va 39)).
    rewrite C by lia. unfold tab. replace (index va 39 <? 512) with true by lia. rewrite E4. reflexivity. }
  rewrite E3. change (0x102000 + 8 * 0) with (0x101000 + 8 * 512).
  change (quads m (0x101000 + 8 * 512)) with (T m 512). pose proof (C 512 eq_refl) as C3. change (tab pde 512) with 0x103003 in C3.
  assert (N.testbit (T m 512) 7 = false) as -> by (rewrite <- clean_bit by discriminate; rewrite C3; reflexivity).
  assert (frame (T m 512) 12 = 0x103000) as -> by (rewrite <- clean_frame by discriminate; rewrite C3; reflexivity).
  replace (0x103000 + 8 * index va 21) with (0x101000 + 8 * (1024 + index va 21)) by lia.
  change (quads m (0x101000 + 8 * (1024 + index va 21))) with (T m (1024 + index va 21)).
  assert (N.testbit (T m (1024 + index va 21)) 7 = true) as ->; [|reflexivity].
  rewrite <- clean_bit by discriminate. rewrite C by lia. unfold tab.
  replace (1024 + index va 21 <? 512) with false by lia. replace (1024 + index va 21 <? 1024) with false by lia.
  replace (1024 + index va 21 - 1024) with (index va 21) by lia. apply Ok, H13.
Qed.
Lemma mark3 w i j m : i < 512 -> j < 512 -> bytewise m ->
  let m' := mark_path w [0x101000 + 8 * i; 0x101000 + 8 * 512; 0x101000 + 8 * (1024 + j)] m in
  grows m m' /\ N.testbit (T m' (1024 + j)) 5 = true /\ (w = true -> N.testbit (T m' (1024 + j)) 6 = true) /\
  T m' (1024 + j) = N.lor (T m (1024 + j)) (if w then 0x60 else 0x20) /\
  forall k, k <> j -> T m' (1024 + k) = T m (1024 + k).
Proof.
  intros Hi Hj Hm m'. subst m'. cbn [mark_path].
  set (m1 := mark 0x20 (0x101000 + 8 * i) m). set (m2 := mark 0x20 (0x101000 + 8 * 512) m1).
  assert (G1 : grows m m1) by (apply mark_grows; [lia|auto]).
  assert (G2 : grows m1 m2) by (apply mark_grows; [lia|auto]).
  assert (Hb : (if w then 0x60 else 0x20) = 0x20 \/ (if w then 0x60 else 0x20) = 0x60) by (destruct w; auto).
  assert (B2 : bytewise m2) by (apply G2, G1, Hm).
  assert (E2 : forall k, T m2 (1024 + k) = T m (1024 + k)) by (intros k; unfold m2, m1; rewrite !T_mark_other by lia; reflexivity).
  split; [exact (grows_trans _ _ _ (grows_trans _ _ _ G1 G2) (mark_grows m2 (1024 + j) _ ltac:(lia) Hb))|].
  rewrite T_mark_same by (try exact B2; apply mark_bits, Hb). rewrite E2.
  split; [rewrite N.lor_spec; destruct w; apply orb_true_r|]. split; [intros ->; rewrite N.lor_spec; apply orb_true_r|]. split; [reflexivity|].
  intros k Hk. rewrite T_mark_other by lia. apply E2.
Qed.

(** ** One access *)
Definition in_4m (p : N) : Prop := 0x400000 <= p < 0x600000.
Definition open_page (w4 : bool) : N -> bool := fun i => if i =? 2 then w4 else true.
Record good (pde : N -> N) (s : proc) : Prop := {
  go_clean : clean pde (pm s);
  go_tlb : forall va c, va < 2 ^ 64 -> tlb s (page_of va) = Some c ->
    expected_phys va = Some (phys (c_map c) + va mod 2 ^ 21) /\
    (~ in_4m (phys (c_map c) + va mod 2 ^ 21) -> writable (c_map c) = true) /\
    N.testbit (T (pm s) (1024 + index va 21)) 5 = true /\ (c_dirty c = true -> N.testbit (T (pm s) (1024 + index va 21)) 6 = true)
}.
Lemma same_page va va' p : va < 2 ^ 64 -> va' < 2 ^ 64 -> page_of va' = page_of va -> expected_phys va = Some p ->
  expected_phys va' = Some (p - va mod 2 ^ 21 + va' mod 2 ^ 21) /\ va mod 2 ^ 21 <= p /\ index va' 21 = index va 21.
Proof.
  unfold page_of. intros H H' Hp. rewrite !index_div. change (2 ^ 21) with 2097152 in *. rewrite Hp. unfold expected_phys, window_offset.
  change (2 ^ 64) with 18446744073709551616 in *.
  destruct (va <? 0x8000000000) eqn:E1.
  - replace (va' <? 0x8000000000) with true by lia.
    destruct (va <? 0xa00000) eqn:E2.
    + replace (va' <? 0xa00000) with true by lia. intros [= <-]. split; [f_equal; lia|split; [lia|reflexivity] ].
    + replace (va' <? 0xa00000) with false by lia. destruct (va <? 0x1a00000) eqn:E3; [|discriminate].
      replace (va' <? 0x1a00000) with true by lia. intros [= <-]. split; [f_equal; lia|split; [lia|reflexivity] ].
  - replace (va' <? 0x8000000000) with false by lia.
    destruct ((0xffff800000000000 <=? va) && (va <? 0xffff808000000000)) eqn:E0; [|discriminate].
    replace ((0xffff800000000000 <=? va') && (va' <? 0xffff808000000000)) with true by lia.
    set (o := va - 0xffff800000000000) in *. set (o' := va' - 0xffff800000000000) in *.
    assert (va mod 2097152 = o mod 2097152) as -> by lia. assert (va' mod 2097152 = o' mod 2097152) as -> by lia.
    assert (o / 2097152 = o' / 2097152) as Ho by lia. clearbody o o'. clear - Ho.
    destruct (o <? 0xa00000) eqn:E2.
    + replace (o' <? 0xa00000) with true by lia. intros [= <-]. split; [f_equal; lia|split; [lia|reflexivity] ].
    + replace (o' <? 0xa00000) with false by lia. destruct (o <? 0x1a00000) eqn:E3; [|discriminate].
      replace (o' <? 0x1a00000) with true by lia. intros [= <-]. split; [f_equal; lia|split; [lia|reflexivity] ].
Qed.
Lemma open_at w4 va p : va < 2 ^ 64 -> expected_phys va = Some p -> ~ in_4m p -> wr_at (open_page w4) va = true.
Proof.
  intros Hva E H. destruct (mapped_index va p Hva E) as (o & Eo & Ho & _). unfold wr_at. rewrite Eo. unfold open_page.
  destruct (N.eqb_spec (o / 0x200000) 2) as [E2|E2]; [|reflexivity]. exfalso. apply H. unfold expected_phys in E. rewrite Eo in E.
  unfold in_4m. replace (o <? 0xa00000) with true in E by lia. injection E as <-. lia.
Qed.
