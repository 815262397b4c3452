(** Proofs about the boot page tables. *)
From stdpp Require Import list.
From Coq Require Import NArith Lia ZifyBool ZifyNat ZifyN.
From Verif Require Import PagingModel PagingSpec.
Local Open Scope N_scope.
Local Ltac Zify.zify_post_hook ::= Z.div_mod_to_equations.

Lemma index_div va s : index va s = va / 2 ^ s mod 512.
Proof. unfold index. change 0x1FF with (N.ones 9). rewrite N.land_ones, N.shiftr_div_pow2. reflexivity. Qed.
Lemma index_lt va s : index va s < 512.
Proof. rewrite index_div. apply N.mod_lt. lia. Qed.

Lemma read4 pde other i : i < 512 -> table_mem pde other (0x101000 + 8 * i) = PML4 i.
Proof.
  intros Hi. unfold table_mem. replace ((0x101000 <=? 0x101000 + 8 * i) && (0x101000 + 8 * i <? 0x102000)) with true by lia.
  f_equal. lia.
Qed.
Lemma read3 pde other i : i < 512 -> table_mem pde other (0x102000 + 8 * i) = PDPTE i.
Proof.
  intros Hi. unfold table_mem.
  replace ((0x101000 <=? 0x102000 + 8 * i) && (0x102000 + 8 * i <? 0x102000)) with false by lia.
  replace ((0x102000 <=? 0x102000 + 8 * i) && (0x102000 + 8 * i <? 0x103000)) with true by lia.
  f_equal. lia.
Qed.
Lemma read2 pde other i : i < 512 -> table_mem pde other (0x103000 + 8 * i) = pde i.
Proof.
  intros Hi. unfold table_mem.
  replace ((0x101000 <=? 0x103000 + 8 * i) && (0x103000 + 8 * i <? 0x102000)) with false by lia.
  replace ((0x102000 <=? 0x103000 + 8 * i) && (0x103000 + 8 * i <? 0x103000)) with false by lia.
  replace ((0x103000 <=? 0x103000 + 8 * i) && (0x103000 + 8 * i <? 0x104000)) with true by lia.
  f_equal. lia.
Qed.

(** What matters of a page directory: 2 MiB pages only. *)
Definition pd_ok (pde : N -> N) (wr : N -> bool) : Prop :=
  (forall i, 13 <= i -> pde i = 0) /\
  forall i, i < 13 ->
    present (pde i) = true /\ N.testbit (pde i) 7 = true /\ N.testbit (pde i) 2 = false /\
    N.testbit (pde i) 1 = wr i /\
    frame (pde i) 21 = if i <? 5 then 0x200000 * i else 0xe0000000 + 0x200000 * (i - 5).

Lemma cases13 (P : N -> Prop) :
  P 0 -> P 1 -> P 2 -> P 3 -> P 4 -> P 5 -> P 6 -> P 7 -> P 8 -> P 9 -> P 10 -> P 11 -> P 12 ->
  forall i, i < 13 -> P i.
Proof.
  intros. assert (i = 0 \/ i = 1 \/ i = 2 \/ i = 3 \/ i = 4 \/ i = 5 \/ i = 6 \/ i = 7 \/ i = 8 \/ i = 9 \/
    i = 10 \/ i = 11 \/ i = 12) as E by lia.
  repeat (destruct E as [-> | E]; [assumption|]). subst. assumption.
Qed.

Lemma PDE_ok : pd_ok PDE (fun _ => true).
Proof.
  split.
  - intros i Hi. unfold PDE. apply nth_overflow. cbn [length]. lia.
  - apply cases13; vm_compute; repeat split.
Qed.
Lemma PDE_main_ok : pd_ok PDE_main (fun i => negb (i =? 2)).
Proof.
  split.
  - intros i Hi. unfold PDE_main. replace (i =? 2) with false by lia. apply PDE_ok, Hi.
  - apply cases13; vm_compute; repeat split.
Qed.

Definition wr_at (wr : N -> bool) (va : N) : bool :=
  match window_offset va with Some o => wr (o / 0x200000) | None => false end.

Lemma present_0 : present 0 = false. Proof. reflexivity. Qed.
Lemma present_4 : present 0x102007 = true. Proof. reflexivity. Qed.
Lemma frame_4 : frame 0x102007 12 = 0x102000. Proof. reflexivity. Qed.
Lemma present_3 : present 0x103003 = true. Proof. reflexivity. Qed.
Lemma large_3 : N.testbit 0x103003 7 = false. Proof. reflexivity. Qed.
Lemma frame_3 : frame 0x103003 12 = 0x103000. Proof. reflexivity. Qed.

Lemma allow_43 : allow (allow (true, true) 0x102007) 0x103003 = (true, false). Proof. reflexivity. Qed.

(** The walk step by step, for any memory. *)
Lemma walk_nc m va : canonical va = false -> walk m va = None.
Proof. intros H. unfold walk. rewrite H. reflexivity. Qed.
Lemma walk_np4 m va e4 : m (cr3 + 8 * index va 39) = e4 -> present e4 = false -> walk m va = None.
Proof. intros E4 P4. unfold walk. rewrite E4, P4. destruct (canonical va); reflexivity. Qed.
Lemma walk_np3 m va e4 e3 :
  m (cr3 + 8 * index va 39) = e4 -> m (frame e4 12 + 8 * index va 30) = e3 -> present e3 = false ->
  walk m va = None.
Proof.
  intros E4 E3 P3. unfold walk. rewrite E4, E3, P3. destruct (canonical va), (present e4); reflexivity.
Qed.
Lemma walk_np2 m va e4 e3 e2 :
  m (cr3 + 8 * index va 39) = e4 -> m (frame e4 12 + 8 * index va 30) = e3 -> N.testbit e3 7 = false ->
  m (frame e3 12 + 8 * index va 21) = e2 -> present e2 = false ->
  walk m va = None.
Proof.
  intros E4 E3 L3 E2 P2. unfold walk. rewrite E4, E3, L3, E2, P2.
  destruct (canonical va), (present e4), (present e3); reflexivity.
Qed.
Lemma walk_2m m va e4 e3 e2 :
  canonical va = true ->
  m (cr3 + 8 * index va 39) = e4 -> present e4 = true ->
  m (frame e4 12 + 8 * index va 30) = e3 -> present e3 = true -> N.testbit e3 7 = false ->
  m (frame e3 12 + 8 * index va 21) = e2 -> present e2 = true -> N.testbit e2 7 = true ->
  walk m va = Some {| phys := frame e2 21 + va mod 2 ^ 21;
    writable := fst (allow (allow (allow (true, true) e4) e3) e2);
    user := snd (allow (allow (allow (true, true) e4) e3) e2) |}.
Proof.
  intros C E4 P4 E3 P3 L3 E2 P2 L2. unfold walk. rewrite C, E4, P4, E3, P3, L3, E2, P2, L2. reflexivity.
Qed.

Lemma mem4 pde other va : table_mem pde other (cr3 + 8 * index va 39) = PML4 (index va 39).
Proof. apply read4, index_lt. Qed.
Lemma mem3 pde other va : table_mem pde other (frame 0x102007 12 + 8 * index va 30) = PDPTE (index va 30).
Proof. rewrite frame_4. apply read3, index_lt. Qed.
Lemma mem2 pde other va : table_mem pde other (frame 0x103003 12 + 8 * index va 21) = pde (index va 21).
Proof. rewrite frame_3. apply read2, index_lt. Qed.

Lemma window_index va o : va < 2 ^ 64 -> window_offset va = Some o ->
  canonical va = true /\ (index va 39 = 0 \/ index va 39 = 256) /\ o < 0x8000000000 /\
  index va 30 = o / 1073741824 /\ index va 21 = o / 2097152 mod 512 /\ va mod 2 ^ 21 = o mod 2097152.
Proof.
  intros Hva. rewrite !index_div. unfold window_offset, canonical. change (2 ^ 39) with 549755813888.
  change (2 ^ 30) with 1073741824. change (2 ^ 21) with 2097152. change (2 ^ 47) with 140737488355328.
  change (2 ^ 64) with 18446744073709551616 in *.
  destruct (va <? 0x8000000000) eqn:E1.
  - intros [= <-]. split; [lia|]. split; [left; lia|]. split; [lia|]. split; [lia|]. split; reflexivity.
  - destruct ((0xffff800000000000 <=? va) && (va <? 0xffff808000000000)) eqn:E2; [|discriminate].
    intros [= <-]. split; [lia|]. split; [right; lia|]. split; [lia|]. split; [lia|]. split; lia.
Qed.
Lemma no_window va : va < 2 ^ 64 -> window_offset va = None -> canonical va = true ->
  index va 39 <> 0 /\ index va 39 <> 256.
Proof.
  intros Hva. rewrite !index_div. unfold window_offset, canonical. change (2 ^ 39) with 549755813888.
  change (2 ^ 47) with 140737488355328. change (2 ^ 64) with 18446744073709551616 in *.
  destruct (va <? 0x8000000000) eqn:E1; [discriminate|].
  destruct ((0xffff800000000000 <=? va) && (va <? 0xffff808000000000)) eqn:E2; [discriminate|].
  intros _ Hc. split; lia.
Qed.

Lemma walk_spec pde wr other va :
  pd_ok pde wr -> va < 2 ^ 64 ->
  walk (table_mem pde other) va =
  match expected_phys va with
  | Some p => Some {| phys := p; writable := wr_at wr va; user := false |}
  | None => None
  end.
Proof.
  intros [Hz Hp] Hva. unfold expected_phys, wr_at.
  destruct (window_offset va) as [o|] eqn:Eo.
  - destruct (window_index va o Hva Eo) as (C & H4 & Ho & E30 & E21 & Eoff).
    assert (E4 : PML4 (index va 39) = 0x102007) by (destruct H4 as [-> | ->]; reflexivity).
    pose proof (mem4 pde other va) as M4. rewrite E4 in M4.
    pose proof (mem3 pde other va) as M3.
    pose proof (mem2 pde other va) as M2.
    destruct (N.eq_dec (o / 1073741824) 0) as [H30|H30].
    + assert (E3 : PDPTE (index va 30) = 0x103003) by (rewrite E30, H30; reflexivity). rewrite E3 in M3.
      assert (E512 : o / 2097152 mod 512 = o / 2097152) by (apply N.mod_small; lia).
      assert (E2 : pde (index va 21) = pde (o / 2097152)) by (rewrite E21, E512; reflexivity). rewrite E2 in M2.
      destruct (N.lt_ge_cases (o / 2097152) 13) as [H13|H13].
      * destruct (Hp _ H13) as (P1 & P2 & P3 & P4 & P5).
        rewrite (walk_2m _ va 0x102007 0x103003 (pde (o / 2097152)) C M4 present_4 M3 present_3 large_3 M2 P1 P2).
        rewrite allow_43. unfold allow. cbn [fst snd andb]. rewrite P4, P5, Eoff.
        clear - H13. destruct (N.ltb_spec (o / 2097152) 5) as [H5|H5].
        -- replace (o <? 0xa00000) with true by lia.
           assert (E : 2097152 * (o / 2097152) + o mod 2097152 = o) by lia. rewrite E. reflexivity.
        -- replace (o <? 0xa00000) with false by lia. replace (o <? 0x1a00000) with true by lia.
           assert (E : 0xe0000000 + 2097152 * (o / 2097152 - 5) + o mod 2097152 = o - 0xa00000 + 0xe0000000) by lia.
           rewrite E. reflexivity.
      * rewrite (Hz _ H13) in M2. rewrite (walk_np2 _ va _ _ _ M4 M3 large_3 M2 present_0). clear - H13.
        replace (o <? 0xa00000) with false by lia. replace (o <? 0x1a00000) with false by lia. reflexivity.
    + assert (E3 : PDPTE (index va 30) = 0) by (rewrite E30; unfold PDPTE; destruct (N.eqb_spec (o / 1073741824) 0); [contradiction|reflexivity]).
      rewrite E3 in M3. rewrite (walk_np3 _ va _ _ M4 M3 present_0). clear - H30.
      replace (o <? 0xa00000) with false by lia. replace (o <? 0x1a00000) with false by lia. reflexivity.
  - destruct (canonical va) eqn:C; [|apply walk_nc; exact C].
    destruct (no_window va Hva Eo C) as [H1 H2].
    pose proof (mem4 pde other va) as M4.
    assert (E4 : PML4 (index va 39) = 0).
    { unfold PML4. destruct (N.eqb_spec (index va 39) 0); [contradiction|].
      destruct (N.eqb_spec (index va 39) 256); [contradiction|]. reflexivity. }
    rewrite E4 in M4. exact (walk_np4 _ va _ M4 present_0).
Qed.

Lemma boot_walk_spec other va : va < 2 ^ 64 ->
  boot_walk other va =
  match expected_phys va with
  | Some p => Some {| phys := p; writable := true; user := false |}
  | None => None
  end.
Proof.
  intros Hva. unfold boot_walk. rewrite (walk_spec PDE _ other va PDE_ok Hva).
  destruct (expected_phys va) eqn:E; [|reflexivity]. unfold wr_at, expected_phys in *.
  destruct (window_offset va); [reflexivity|discriminate].
Qed.

Lemma main_walk_spec other va : va < 2 ^ 64 ->
  main_walk other va =
  match boot_walk other va with
  | Some m => Some {| phys := phys m; user := user m;
      writable := negb (match window_offset va with
                        | Some o => (0x400000 <=? o) && (o <? 0x600000) | None => false end) |}
  | None => None
  end.
Proof.
  intros Hva. rewrite boot_walk_spec by exact Hva. unfold main_walk.
  rewrite (walk_spec PDE_main _ other va PDE_main_ok Hva).
  destruct (expected_phys va) eqn:E; [|reflexivity]. cbn [phys user]. f_equal. f_equal. unfold wr_at, expected_phys in *.
  destruct (window_offset va) as [o|]; [|discriminate]. f_equal. lia.
Qed.

(** The whole frame buffer is mapped, in both windows. *)
Lemma frame_buffer other i : i < 1440 * 900 * 4 ->
  boot_walk other (0xffff800000a00000 + i) = Some {| phys := 0xe0000000 + i; writable := true; user := false |}.
Proof.
  intros Hi. rewrite boot_walk_spec by lia. unfold expected_phys, window_offset.
  replace (0xffff800000a00000 + i <? 0x8000000000) with false by lia.
  replace ((0xffff800000000000 <=? 0xffff800000a00000 + i) && (0xffff800000a00000 + i <? 0xffff808000000000))
    with true by lia.
  replace (0xffff800000a00000 + i - 0xffff800000000000 <? 0xa00000) with false by lia.
  replace (0xffff800000a00000 + i - 0xffff800000000000 <? 0x1a00000) with true by lia.
  f_equal. f_equal. lia.
Qed.
Lemma low_memory other o : o < 0xa00000 ->
  boot_walk other o = Some {| phys := o; writable := true; user := false |} /\
  boot_walk other (0xffff800000000000 + o) = Some {| phys := o; writable := true; user := false |}.
Proof.
  intros Ho. rewrite !boot_walk_spec by lia. unfold expected_phys, window_offset.
  replace (o <? 0x8000000000) with true by lia. replace (o <? 0xa00000) with true by lia.
  replace (0xffff800000000000 + o <? 0x8000000000) with false by lia.
  replace ((0xffff800000000000 <=? 0xffff800000000000 + o) && (0xffff800000000000 + o <? 0xffff808000000000))
    with true by lia.
  replace (0xffff800000000000 + o - 0xffff800000000000) with o by lia. replace (o <? 0xa00000) with true by lia.
  split; reflexivity.
Qed.
