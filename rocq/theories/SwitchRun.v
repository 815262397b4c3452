(** Symbolic execution of the way into long mode. *)
From stdpp Require Import list.
From Coq Require Import NArith Lia ZifyBool ZifyNat ZifyN.
From Verif Require Import PagingModel PagingSpec PagingProofs SwitchModel SwitchSpec SwitchProofs.
Local Open Scope N_scope.

(** memory the accesses below must not touch *)
Definition is_table (a : N) : Prop := 0x90000 <= a < 0x93000 \/ 0x101000 <= a < 0x104000.
Lemma temp_frame m m' : temp_tables m -> (forall a, is_table a -> m' a = m a) -> temp_tables m'.
Proof.
  intros T H. split; try (eapply holds_ext; [apply T|]; intros i Hi; apply H; unfold is_table; lia).
  intros i Hi. eapply holds_ext; [apply T, Hi|]. intros j Hj. apply H. unfold is_table. lia.
Qed.
Lemma boot_frame m m' : boot_tables m -> (forall a, is_table a -> m' a = m a) -> boot_tables m'.
Proof.
  intros T H. split; intros i Hi; (eapply holds_ext; [apply T, Hi|]); intros j Hj; apply H; unfold is_table; lia.
Qed.
(** paging is on and CR3 points to one of the two sets of tables *)
Definition tabled (s : cpu) : Prop := paging s = true /\ lma s = true /\
  (cr3 s = 0x90000 /\ temp_tables (mem s) \/ cr3 s = 0x101000 /\ boot_tables (mem s)).
Lemma tabled_maps s : tabled s -> maps s.
Proof.
  intros (P & Lm & T) va o w Hva W Ho. unfold translate. rewrite P, Lm. cbn [negb].
  destruct T as [[-> T]|[-> T]].
  - change (frame 0x90000 12) with 0x90000. rewrite (temp_walk _ va o T Hva W) by lia. cbn [writable phys negb].
    destruct w; reflexivity.
  - change (frame 0x101000 12) with 0x101000. rewrite walk_at_boot, boot_same, boot_walk_spec by assumption.
    unfold expected_phys. rewrite W. replace (o <? 0xa00000) with true by lia. cbn [writable phys negb]. destruct w; reflexivity.
Qed.
Lemma tabled_put s a v : tabled s -> ~ is_table a -> tabled (with_mem (upd (mem s) a v) s).
Proof.
  intros (P & Lm & T) Ha. split; [exact P|]. split; [exact Lm|]. cbn [with_mem SwitchModel.cr3 mem].
  assert (forall x, is_table x -> upd (mem s) a v x = mem s x) as F.
  { intros x Hx. unfold upd. destruct (N.eqb_spec x a); [subst; tauto|reflexivity]. }
  destruct T as [[E T]|[E T]]; [left|right]; (split; [exact E|]).
  - eapply temp_frame; [exact T|exact F].
  - eapply boot_frame; [exact T|exact F].
Qed.
Lemma wrl_tabled n : forall s va o v, tabled s -> alias va o -> o + N.of_nat n <= 0x90000 ->
  wrl s va n v = Go (with_mem (put (mem s) o n v) s).
Proof.
  induction n as [|n IH]; intros s va o v T Ha Ho. { destruct s; reflexivity. }
  cbn [wrl put]. rewrite (maps_at s va o) by (try apply tabled_maps; try assumption; lia). cbn [rbind].
  rewrite (IH _ (va + 1) (o + 1)).
  - reflexivity.
  - apply tabled_put; [exact T|]. unfold is_table. lia.
  - apply alias_add, Ha.
  - lia.
Qed.

(** ** one instruction of a block *)
Lemma block_step at_ ph k i is s s' r :
  translate s (at_ + k) false = Go (ph + k) -> exec at_ i s = Go s' -> block at_ ph (k + 1) is s' = r ->
  block at_ ph k (i :: is) s = r.
Proof. intros E1 E2 E3. cbn [block]. rewrite E1. cbn [rbind]. rewrite N.eqb_refl, E2. exact E3. Qed.
Lemma enter_block ph is s r : translate s (here s) false = Go ph -> block (here s) ph 0 is s = r -> enter ph is s = r.
Proof. intros E1 E2. unfold enter. rewrite E1. cbn [rbind]. rewrite N.eqb_refl. exact E2. Qed.

(** reading what memory holds *)
Lemma rd2 m a v : holds_at m a 2 v -> v < 65536 -> rdp m a 2 = v.
Proof. intros H Hv. apply (rdp_holds m 2); [exact H|exact Hv]. Qed.
Lemma rd4 m a v : holds_at m a 4 v -> v < 4294967296 -> rdp m a 4 = v.
Proof. intros H Hv. apply (rdp_holds m 4); [exact H|exact Hv]. Qed.
Lemma rd8 m a v : holds_at m a 8 v -> v < 18446744073709551616 -> rdp m a 8 = v.
Proof. intros H Hv. apply (rdp_holds m 8); [exact H|exact Hv]. Qed.

(** ** the 16-bit tail (loader.asm:385-395) *)
Definition flat_code : seg := Seg 0x08 0 0xffffffff 0x00CF9A000000FFFF.
Definition flat_data : seg := Seg 0x10 0 0xffffffff 0x00CF92000000FFFF.
Lemma lor_setbit a : N.lor a 1 = N.setbit a 0. Proof. reflexivity. Qed.
Lemma low32_small x : x < 2 ^ 32 -> low32 x = x. Proof. apply N.mod_small. Qed.
Lemma setbit_lt x b n : x < 2 ^ n -> b < n -> N.setbit x b < 2 ^ n.
Proof.
  intros Hx Hb. assert (N.setbit x b = N.setbit x b mod 2 ^ n) as ->; [|apply N.mod_lt, N.pow_nonzero; lia].
  apply N.bits_inj. intros k. destruct (N.ltb_spec k n) as [Hk|Hk].
  - rewrite N.mod_pow2_bits_low by exact Hk. reflexivity.
  - rewrite N.mod_pow2_bits_high by exact Hk. rewrite N.setbit_eqb.
    replace (b =? k) with false by lia. cbn [orb]. destruct (N.eq_dec x 0) as [->|H0]; [apply N.bits_0|].
    apply N.bits_above_log2. apply N.log2_lt_pow2 in Hx; lia.
Qed.

Lemma desc_real s v d : paging s = false -> snd (gdtr s) = 23 -> N.testbit v 2 = false -> 8 * (v / 8) + 7 <= 23 ->
  holds_at (mem s) (fst (gdtr s) + 8 * (v / 8)) 8 d -> d < 18446744073709551616 -> descriptor s v = Go d.
Proof.
  intros P G B Hv H Hd. unfold descriptor. rewrite B, G. cbn [negb].
  replace (8 * (v / 8) + 7 <=? 23) with true by lia. rewrite rdl_real by exact P. rewrite (rd8 _ _ d H Hd). reflexivity.
Qed.

Record after16 (L : layout) (s s' : cpu) : Prop := {
  a_mem : mem s' = mem s; a_cr0 : cr0 s' = N.setbit (cr0 s) 0; a_cr4 : cr4 s' = cr4 s; a_efer : efer s' = efer s;
  a_cs : cs s' = flat_code; a_rip : rip s' = l_protect L; a_gdtr : gdtr s' = (l_gdt32 L, 23); a_intr : intr s' = false
}.
Lemma tail16_ok L s : layout_ok L -> loader_in L (mem s) -> real_mode L s ->
  exists s', enter (l_tail L) (tail16 L) s = Go s' /\ after16 L s s'.
Proof.
  intros LO LI RM.
  assert (Ppg : forall s', cr0 s' = cr0 s -> paging s' = false) by (intros s' E; unfold paging; rewrite E; apply RM).
  assert (Plm : forall s', efer s' = efer s -> mode64 s' = false).
  { intros s' E. unfold mode64, lma. rewrite E. rewrite (rm_lma L s RM). reflexivity. }
  assert (here s = l_tail L) as Hh.
  { unfold here. rewrite Plm by reflexivity. destruct (rm_cs L s RM) as (_ & -> & ->).
    pose proof (lo_tail L LO). rewrite N.mod_small by lia. lia. }
  pose proof (lo_p32 L LO) as Lp. pose proof (lo_protect L LO) as Lq. pose proof (lo_g32 L LO) as Lg.
  destruct (rm_ds L s RM) as (Db & Dl).
  set (c := N.setbit (cr0 s) 0).
  set (s1 := with_gdtr (l_gdt32 L, 23) (with_intr false s)).
  set (s2 := with_rax (cr0 s) s1).
  set (s3 := with_rax c s2).
  set (s4 := with_cr0 c (efer s) s3).
  assert (c < 2 ^ 32) as Hc by (apply setbit_lt; [apply RM|lia]).
  assert (N.testbit c 31 = false) as C31 by (unfold c; rewrite N.setbit_eqb; apply RM).
  assert (N.testbit c 0 = true) as C0 by (unfold c; rewrite N.setbit_eqb; reflexivity).
  assert (N.testbit c 29 = true -> N.testbit c 30 = true) as C29.
  { unfold c. rewrite !N.setbit_eqb. apply RM. }
  exists (with_cs flat_code (l_protect L) s4). split.
  - apply enter_block.
    { rewrite tr_real by (apply Ppg; reflexivity). f_equal. exact Hh. }
    rewrite Hh.
    eapply block_step; [apply tr_real, Ppg; reflexivity|reflexivity|].
    eapply block_step; [apply tr_real, Ppg; reflexivity| |].
    { cbn [exec]. unfold linear. rewrite Plm by reflexivity. cbn [with_intr sr].
      rewrite Dl, Db. replace (l_gdt32ptr L - 65536 + 6 - 1 <=? 65535) with true by lia. cbn [rbind].
      unfold load_table. rewrite !rdl_real by (apply Ppg; reflexivity). rewrite Plm by reflexivity. cbn [rbind with_intr mem].
      rewrite N.mod_small by lia. replace (65536 + (l_gdt32ptr L - 65536)) with (l_gdt32ptr L) by lia.
      rewrite (rd2 _ _ 23), (rd4 _ _ (l_gdt32 L)) by (try apply LI; lia). reflexivity. }
    eapply block_step; [apply tr_real, Ppg; reflexivity| |].
    { cbn [exec]. change (0 =? 0) with true. cbn [with_gdtr with_intr SwitchModel.cr0]. unfold width.
      rewrite Plm by reflexivity. rewrite low32_small by apply RM. reflexivity. }
    eapply block_step; [apply tr_real, Ppg; reflexivity| |].
    { cbn [exec with_rax with_regs rax]. rewrite low32_small by apply RM. rewrite lor_setbit. reflexivity. }
    fold c. fold s1. fold s2. fold s3.
    eapply block_step; [apply tr_real, Ppg; reflexivity| |].
    { cbn [exec]. change (0 =? 0) with true. cbn iota. unfold width. rewrite Plm by reflexivity. change (rax s3) with c.
      rewrite low32_small by exact Hc. unfold set_cr0. rewrite C31, C0. cbn [negb orb].
      replace (negb (N.testbit c 29) || N.testbit c 30) with true by (destruct (N.testbit c 29); [rewrite C29; reflexivity|reflexivity]).
      rewrite Ppg by reflexivity. reflexivity. }
    change (with_cr0 c (efer s3) s3) with s4.
    assert (paging s4 = false) as P4 by exact C31.
    eapply block_step; [apply tr_real, P4| |reflexivity].
    cbn [exec]. unfold load_cs. assert (protected s4 = true) as -> by exact C0. change (8 <? 4) with false. cbn [negb].
    rewrite (desc_real s4 8 0x00CF9A000000FFFF).
    + cbn [rbind]. assert (cpl s4 = 0) as ->.
      { unfold cpl. assert (protected s4 = true) as -> by exact C0. change (cs s4) with (cs s). rewrite (proj1 (rm_cs L s RM)). reflexivity. }
      assert (lma s4 = false) as -> by (apply RM).
      assert (l_protect L <=? d_limit 0x00CF9A000000FFFF = true) as E.
      { change (d_limit 0x00CF9A000000FFFF) with 4294967295. lia. }
      cbn [andb negb]. rewrite E. reflexivity.
    + exact P4.
    + reflexivity.
    + reflexivity.
    + vm_compute; discriminate.
    + apply LI.
    + reflexivity.
  - split; reflexivity.
Qed.

(** ** protected mode (loader.asm:401-410) *)
Lemma low16_sel x : low16 x 0x10 mod 2 ^ 16 = 0x10.
Proof. unfold low16. rewrite N.add_comm, N.mod_add by (apply N.pow_nonzero; lia). reflexivity. Qed.
Lemma desc_ok s v d : descriptor s v = Go d -> protected s = true -> cpl s = 0 -> v = 0x10 ->
  d = 0x00CF92000000FFFF \/ d = 0x0000920000000000 -> forall r, load_sr r v s = Go (with_sr r (as_seg v d) s).
Proof.
  intros D P C -> Hd r. unfold load_sr. rewrite P. cbn [negb]. change (16 <? 4) with false. cbn iota. rewrite D. cbn [rbind].
  rewrite C. destruct Hd as [-> | ->]; destruct r; reflexivity.
Qed.
Definition in32 (s : cpu) : Prop := protected s = true /\ paging s = false /\ lma s = false /\ N.land (sel (cs s)) 3 = 0.
Lemma in32_mode s : in32 s -> mode64 s = false.
Proof. intros (_ & _ & H & _). unfold mode64. rewrite H. reflexivity. Qed.
Lemma in32_cpl s : in32 s -> cpl s = 0.
Proof. intros (P & _ & _ & C). unfold cpl. rewrite P. exact C. Qed.
Lemma mov_sr32 at_ r s d : in32 s -> rax s mod 2 ^ 16 = 0x10 -> snd (gdtr s) = 23 -> holds_at (mem s) (fst (gdtr s) + 16) 8 d ->
  d = 0x00CF92000000FFFF \/ d = 0x0000920000000000 -> exec at_ (MovSr r) s = Go (with_sr r (as_seg 0x10 d) s).
Proof.
  intros I A G H Hd. cbn [exec]. rewrite A. apply desc_ok; try reflexivity; try exact Hd.
  - apply (desc_real s 16 d); [apply I|exact G|reflexivity|lia|exact H|destruct Hd as [-> | ->]; reflexivity].
  - apply I.
  - apply in32_cpl, I.
Qed.
Lemma put32 at_ a v s : in32 s -> base (sr s DS) = 0 -> limit (sr s DS) = 0xffffffff -> a + 3 <= 0xffffffff ->
  exec at_ (Put a v) s = Go (with_mem (put (mem s) a 4 v) s).
Proof.
  intros I B Lm Ha. cbn [exec]. unfold save, linear. rewrite in32_mode by exact I. rewrite B, Lm.
  change (N.of_nat 4) with 4. replace (a + 4 - 1 <=? 4294967295) with true by lia. cbn [rbind].
  rewrite N.mod_small by lia. apply wrl_real, I.
Qed.
Lemma fetch32 s a : in32 s -> translate s a false = Go a. Proof. intros I. apply tr_real, I. Qed.

Record after32 (L : layout) (ret : N) (s s' : cpu) : Prop := {
  b_mem : mem s' = put (mem s) 0x7DFC 4 ret; b_cr0 : cr0 s' = cr0 s; b_cr4 : cr4 s' = cr4 s; b_efer : efer s' = efer s;
  b_cs : cs s' = flat_code; b_ds : sr s' DS = flat_data; b_gdtr : gdtr s' = gdtr s; b_intr : intr s' = intr s
}.
Lemma protect1_ok L s cpuid ret : layout_ok L -> loader_in L (mem s) -> in32 s -> cs s = flat_code -> rip s = l_protect L ->
  gdtr s = (l_gdt32 L, 23) ->
  exists s', rbind (enter (l_protect L) protect1 s) (check cpuid ret) =
    Go (negb (support_long_mode cpuid =? 0), s') /\ after32 L ret s s'.
Proof.
  intros LO LI I C R G. pose proof (lo_protect L LO) as Lq.
  assert (here s = l_protect L) as Hh.
  { unfold here. rewrite in32_mode by exact I. rewrite C, R. cbn [flat_code base]. rewrite N.mod_small by lia. lia. }
  set (d := as_seg 16 0x00CF92000000FFFF).
  set (s1 := with_rax (low16 (rax s) 0x10) s).
  assert (forall at_ r s', in32 s' -> rax s' = rax s1 -> gdtr s' = gdtr s -> mem s' = mem s ->
    exec at_ (MovSr r) s' = Go (with_sr r d s')) as M.
  { intros at_ r s' I' A' G' M'. apply mov_sr32; [exact I'|rewrite A'; apply low16_sel|rewrite G', G; reflexivity| |left; reflexivity].
    rewrite G', G, M'. apply LI. }
  set (s2 := with_rsp 0x7E00 (with_sr SS d (with_sr FS d (with_sr ES d (with_sr DS d s1))))).
  assert (enter (l_protect L) protect1 s = Go s2) as ->.
  { apply enter_block; [rewrite Hh; apply fetch32, I|]. rewrite Hh. unfold protect1.
    eapply block_step; [apply fetch32; exact I|reflexivity|]. fold s1.
    eapply block_step; [apply fetch32; exact I|apply M; [exact I|reflexivity|reflexivity|reflexivity]|].
    eapply block_step; [apply fetch32; exact I|apply M; [exact I|reflexivity|reflexivity|reflexivity]|].
    eapply block_step; [apply fetch32; exact I|apply M; [exact I|reflexivity|reflexivity|reflexivity]|].
    eapply block_step; [apply fetch32; exact I|apply M; [exact I|reflexivity|reflexivity|reflexivity]|].
    eapply block_step; [apply fetch32; exact I|reflexivity|]. reflexivity. }
  cbn [rbind]. assert (in32 s2) as I2 by exact I.
  set (s3 := with_mem (put (mem s) 0x7DFC 4 ret) s2).
  assert (save s2 SS (rsp s2 - 4) 4 ret = Go s3) as E.
  { unfold save, linear. rewrite in32_mode by exact I2. change (sr s2 SS) with d. change (rsp s2 - 4) with 0x7DFC.
    change (32252 + N.of_nat 4 - 1 <=? limit d) with true. cbn iota. cbn [rbind].
    change ((base d + 32252) mod 2 ^ 32) with 0x7DFC. apply wrl_real, I2. }
  unfold check. rewrite E. cbn [rbind]. eexists. split; [reflexivity|]. split; try reflexivity. exact C.
Qed.

(** ** the tables and the switch (loader.asm:414-471) *)
Definition tables (m : N -> N) : N -> N :=
  put (put (put (put (put (put (put (put (put (put (put (put (put (put (put (put (put (put m
    0x90000 4 0x91007) 0x90004 4 0) 0x90800 4 0x91007) 0x90804 4 0) 0x91000 4 0x92007) 0x91004 4 0)
    0x92000 4 0x000083) 0x92004 4 0) 0x92008 4 0x200083) 0x9200c 4 0) 0x92010 4 0x400083) 0x92014 4 0)
    0x92018 4 0x600083) 0x9201c 4 0) 0x92020 4 0x800083) 0x92024 4 0) 0x92028 4 0xa00083) 0x9202c 4 0.
Lemma holds_join m a lo : lo < 2 ^ 32 -> holds_at m a 4 lo -> holds_at m (a + 4) 4 0 -> holds_at m a 8 lo.
Proof.
  intros Hlo H1 H2 i Hi. destruct (N.ltb_spec i 4) as [Hi4|Hi4]; [apply H1, Hi4|].
  replace (a + i) with (a + 4 + (i - 4)) by lia. rewrite H2 by lia. rewrite N.div_0_l by (apply N.pow_nonzero; lia).
  rewrite N.div_small; [reflexivity|]. apply (N.lt_le_trans _ (2 ^ 32)); [exact Hlo|].
  change (2 ^ 32) with (256 ^ 4). apply N.pow_le_mono_r; lia.
Qed.
Lemma put_out_holds m a n v b k w : holds_at m b k w -> (b + k <= a \/ a + N.of_nat n <= b) -> holds_at (put m a n v) b k w.
Proof. intros H D. eapply holds_ext; [exact H|]. intros i Hi. apply put_out. lia. Qed.
Local Ltac found := repeat (first [apply (put_in 4) | apply put_out_holds; [|vm_compute; (left; discriminate) || (right; discriminate)]]).
Lemma tables_temp m : temp_tables (tables m).
Proof.
  split.
  - apply holds_join; [reflexivity| |]; unfold tables; found.
  - apply holds_join; [reflexivity| |]; unfold tables; found.
  - apply holds_join; [reflexivity| |]; unfold tables; found.
  - apply cases6; (apply holds_join; [reflexivity| |]); unfold tables; cbn [N.mul N.add Pos.mul Pos.add Pos.succ]; found.
Qed.
Lemma tables_out m a : ~ 0x90000 <= a < 0x93000 -> tables m a = m a.
Proof. intros H. unfold tables. rewrite !put_out by (change (N.of_nat 4) with 4; lia). reflexivity. Qed.
