(** Proofs about the way into long mode. *)
From stdpp Require Import list.
From Coq Require Import NArith Lia ZifyBool ZifyNat ZifyN.
From Verif Require Import PagingModel PagingSpec PagingProofs SwitchModel SwitchSpec.
Local Open Scope N_scope.

Lemma go_bind {A B} (x : A) (f : A -> res B) : rbind (Go x) f = f x. Proof. reflexivity. Qed.

(** ** memory *)
Lemma holds_tail m a n v : holds_at m a (N.of_nat (S n)) v -> holds_at m (a + 1) (N.of_nat n) (v / 256).
Proof.
  intros H i Hi. replace (a + 1 + i) with (a + (i + 1)) by lia. rewrite H by lia.
  rewrite N.pow_add_r, N.pow_1_r, (N.mul_comm (256 ^ i)), N.div_div by (try lia; apply N.pow_nonzero; lia). reflexivity.
Qed.
Lemma rdp_holds m n : forall a v, holds_at m a (N.of_nat n) v -> v < 256 ^ N.of_nat n -> rdp m a n = v.
Proof.
  induction n as [|n IH]; intros a v H Hv. { cbn in *. lia. }
  cbn [rdp]. rewrite (IH (a + 1) (v / 256)).
  - assert (m a = v mod 256) as ->. { rewrite <- (N.add_0_r a), (H 0) by lia. rewrite N.pow_0_r, N.div_1_r. reflexivity. }
    rewrite (N.div_mod v 256) at 3 by lia. lia.
  - apply holds_tail, H.
  - rewrite Nat2N.inj_succ, N.pow_succ_r in Hv by lia. apply N.div_lt_upper_bound; lia.
Qed.
Lemma rdp_ext m m' n : forall a, (forall i, i < N.of_nat n -> m (a + i) = m' (a + i)) -> rdp m a n = rdp m' a n.
Proof.
  induction n as [|n IH]; intros a H; [reflexivity|]. cbn [rdp]. rewrite (IH (a + 1)).
  - pose proof (H 0 ltac:(lia)) as E. rewrite N.add_0_r in E. rewrite E. reflexivity.
  - intros i Hi. replace (a + 1 + i) with (a + (1 + i)) by lia. apply H. lia.
Qed.
Fixpoint put (m : N -> N) (a : N) (n : nat) (v : N) : N -> N :=
  match n with O => m | S n => put (upd m a (v mod 256)) (a + 1) n (v / 256) end.
Lemma put_out n : forall m a v x, (x < a \/ a + N.of_nat n <= x) -> put m a n v x = m x.
Proof.
  induction n as [|n IH]; intros m a v x H; [reflexivity|]. cbn [put]. rewrite IH by lia. unfold upd.
  destruct (N.eqb_spec x a); [lia|reflexivity].
Qed.
Lemma put_in n : forall m a v, holds_at (put m a n v) a (N.of_nat n) v.
Proof.
  induction n as [|n IH]; intros m a v i Hi; [lia|]. cbn [put].
  destruct (N.eq_dec i 0) as [->|Hi0].
  - rewrite put_out by lia. unfold upd. rewrite N.add_0_r, N.eqb_refl, N.pow_0_r, N.div_1_r. reflexivity.
  - replace (a + i) with (a + 1 + (i - 1)) by lia. rewrite (IH _ (a + 1) (v / 256) (i - 1)) by lia.
    replace i with (i - 1 + 1) at 2 by lia.
    rewrite N.pow_add_r, N.pow_1_r, (N.mul_comm (256 ^ (i - 1))), N.div_div by (try lia; apply N.pow_nonzero; lia). reflexivity.
Qed.
Lemma holds_ext m m' a n v : holds_at m a n v -> (forall i, i < n -> m' (a + i) = m (a + i)) -> holds_at m' a n v.
Proof. intros H E i Hi. rewrite E by exact Hi. apply H, Hi. Qed.

(** ** accesses without paging *)
Lemma tr_real s va w : paging s = false -> translate s va w = Go va.
Proof. intros H. unfold translate. rewrite H. reflexivity. Qed.
Lemma rdl_real s n : paging s = false -> forall va, rdl s va n = Go (rdp (mem s) va n).
Proof. intros H. induction n as [|n IH]; intros va; [reflexivity|]. cbn [rdl rdp]. rewrite tr_real by exact H. cbn. rewrite IH. reflexivity. Qed.
Lemma wrl_real n : forall s, paging s = false -> forall va v, wrl s va n v = Go (with_mem (put (mem s) va n v) s).
Proof.
  induction n as [|n IH]; intros s H va v. { destruct s; reflexivity. }
  cbn [wrl put]. rewrite tr_real by exact H. cbn [rbind]. rewrite IH by exact H. reflexivity.
Qed.

(** ** accesses with paging *)
Definition maps (s : cpu) : Prop := forall va o w, va < 2 ^ 64 -> window_offset va = Some o -> o < 0xa00000 -> translate s va w = Go o.
Lemma win_lo o : o < 0xa00000 -> window_offset o = Some o.
Proof. intros H. unfold window_offset. replace (o <? 0x8000000000) with true by lia. reflexivity. Qed.
Lemma win_hi o : o < 0xa00000 -> window_offset (high + o) = Some o.
Proof.
  intros H. unfold window_offset, high. replace (0xffff800000000000 + o <? 0x8000000000) with false by lia.
  replace ((0xffff800000000000 <=? 0xffff800000000000 + o) && (0xffff800000000000 + o <? 0xffff808000000000)) with true by lia.
  f_equal. lia.
Qed.
(** the address of a byte of low memory in either window *)
Definition alias (va o : N) : Prop := va = o \/ va = high + o.
Lemma maps_at s va o w : maps s -> alias va o -> o < 0xa00000 -> translate s va w = Go o.
Proof.
  intros H [-> | ->] Ho; apply H; try exact Ho; try (unfold high; lia); [apply win_lo|apply win_hi]; exact Ho.
Qed.
Lemma alias_add va o i : alias va o -> alias (va + i) (o + i).
Proof. intros [-> | ->]; [left|right]; lia. Qed.
Lemma rdl_maps s n : maps s -> forall va o, alias va o -> o + N.of_nat n <= 0xa00000 -> rdl s va n = Go (rdp (mem s) o n).
Proof.
  intros H. induction n as [|n IH]; intros va o Ha Ho; [reflexivity|]. cbn [rdl rdp].
  rewrite (maps_at s va o) by (try assumption; lia). cbn [rbind].
  rewrite (IH (va + 1) (o + 1)) by (try apply alias_add; try assumption; lia). reflexivity.
Qed.

Lemma quads_holds m a v : holds_at m a 8 v -> v < 2 ^ 64 -> quads m a = v.
Proof. intros H Hv. unfold quads. apply rdp_holds; [exact H|exact Hv]. Qed.
Lemma walk_at_2m root m va e4 e3 e2 :
  canonical va = true ->
  m (root + 8 * index va 39) = e4 -> present e4 = true ->
  m (frame e4 12 + 8 * index va 30) = e3 -> present e3 = true -> N.testbit e3 7 = false ->
  m (frame e3 12 + 8 * index va 21) = e2 -> present e2 = true -> N.testbit e2 7 = true ->
  walk_at root m va = Some {| phys := frame e2 21 + va mod 2 ^ 21;
    writable := fst (allow (allow (allow (true, true) e4) e3) e2);
    user := snd (allow (allow (allow (true, true) e4) e3) e2) |}.
Proof.
  intros C E4 P4 E3 P3 L3 E2 P2 L2. unfold walk_at. rewrite C, E4, P4, E3, P3, L3, E2, P2, L2. reflexivity.
Qed.
Lemma cases6 (P : N -> Prop) : P 0 -> P 1 -> P 2 -> P 3 -> P 4 -> P 5 -> forall i, i < 6 -> P i.
Proof.
  intros. assert (i = 0 \/ i = 1 \/ i = 2 \/ i = 3 \/ i = 4 \/ i = 5) as X by lia.
  repeat (destruct X as [-> | X]; [assumption|]). subst. assumption.
Qed.
Lemma temp_entry i : i < 6 -> let e := 0x200000 * i + 0x83 in
  present e = true /\ N.testbit e 7 = true /\ frame e 21 = 0x200000 * i /\ N.testbit e 1 = true /\ N.testbit e 2 = false /\ e < 2 ^ 64.
Proof. revert i. apply cases6; vm_compute; repeat split. Qed.
(** The temporary tables map the first 12 MiB in both windows onto itself, whatever else is in memory. *)
Lemma temp_walk m va o : temp_tables m -> va < 2 ^ 64 -> window_offset va = Some o -> o < 0xc00000 ->
  walk_at 0x90000 (quads m) va = Some {| phys := o; writable := true; user := false |}.
Proof.
  intros T Hva W Ho. destruct (window_index va o Hva W) as (C & I4 & Ho' & I3 & I2 & Om).
  rewrite N.div_small in I3 by lia.
  assert (o / 2097152 < 6) as H6 by (apply N.div_lt_upper_bound; lia).
  rewrite N.mod_small in I2 by lia.
  destruct (temp_entry _ H6) as (E1 & E2 & E3 & E4 & E5 & E6).
  assert (quads m (0x90000 + 8 * index va 39) = 0x91007) as R4.
  { destruct I4 as [-> | ->]; apply quads_holds; try reflexivity; apply T. }
  assert (quads m (frame 0x91007 12 + 8 * index va 30) = 0x92007) as R3.
  { rewrite I3. apply quads_holds; [apply T|reflexivity]. }
  assert (quads m (frame 0x92007 12 + 8 * index va 21) = 0x200000 * (o / 2097152) + 0x83) as R2.
  { rewrite I2. apply quads_holds; [exact (tt_2 m T _ H6)|exact E6]. }
  rewrite (walk_at_2m 0x90000 (quads m) va _ _ _ C R4 eq_refl R3 eq_refl eq_refl R2 E1 E2).
  unfold allow. cbn [fst snd]. rewrite E3, E4, E5, Om.
  rewrite (N.mul_comm 0x200000), N.mul_comm, <- N.div_mod by lia. reflexivity.
Qed.
Lemma walk_at_boot m va : walk_at 0x101000 m va = walk m va. Proof. reflexivity. Qed.
Lemma PML4_64 i : PML4 i < 2 ^ 64. Proof. unfold PML4. destruct ((i =? 0) || (i =? 256)); reflexivity. Qed.
Lemma PDPTE_64 i : PDPTE i < 2 ^ 64. Proof. unfold PDPTE. destruct (i =? 0); reflexivity. Qed.
Lemma PDE_64 i : PDE i < 2 ^ 64.
Proof.
  destruct (N.ltb_spec i 13) as [H|H]; [revert i H; apply cases13; reflexivity|]. rewrite (proj1 PDE_ok) by exact H. reflexivity.
Qed.
(** In memory that holds the kernel's tables the walk is the one of PagingModel.v. *)
Lemma boot_same m va : boot_tables m -> walk (quads m) va = boot_walk (quads m) va.
Proof.
  intros T. unfold boot_walk, walk.
  rewrite mem4.
  assert (quads m (PagingModel.cr3 + 8 * index va 39) = PML4 (index va 39)) as ->.
  { apply quads_holds; [apply T, index_lt|apply PML4_64]. }
  destruct (canonical va); [|reflexivity]. cbn [negb].
  destruct (present (PML4 (index va 39))) eqn:P4; [|reflexivity]. cbn [negb].
  assert (PML4 (index va 39) = 0x102007) as ->.
  { unfold PML4 in *. destruct ((index va 39 =? 0) || (index va 39 =? 256)); [reflexivity|discriminate]. }
  rewrite mem3.
  assert (quads m (frame 0x102007 12 + 8 * index va 30) = PDPTE (index va 30)) as ->.
  { rewrite frame_4. apply quads_holds; [apply T, index_lt|apply PDPTE_64]. }
  destruct (present (PDPTE (index va 30))) eqn:P3; [|reflexivity]. cbn [negb].
  assert (PDPTE (index va 30) = 0x103003) as ->.
  { unfold PDPTE in *. destruct (index va 30 =? 0); [reflexivity|discriminate]. }
  rewrite large_3. rewrite mem2.
  assert (quads m (frame 0x103003 12 + 8 * index va 21) = PDE (index va 21)) as ->.
  { rewrite frame_3. apply quads_holds; [apply T, index_lt|apply PDE_64]. }
  destruct (present (PDE (index va 21))) eqn:P2; [|reflexivity]. cbn [negb].
  assert (N.testbit (PDE (index va 21)) 7 = true) as ->; [|reflexivity].
  destruct (N.ltb_spec (index va 21) 13) as [H|H]; [apply PDE_ok, H|].
  rewrite (proj1 PDE_ok) in P2 by exact H. discriminate.
Qed.
