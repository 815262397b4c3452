(** Symbolic execution of the way into long mode, continued. *)
From stdpp Require Import list.
From Coq Require Import NArith Lia ZifyBool ZifyNat ZifyN.
From Verif Require Import PagingModel PagingSpec PagingProofs SwitchModel SwitchSpec SwitchProofs SwitchRun.
Local Open Scope N_scope.

Definition code64 : seg := as_seg 0x08 0x0020980000000000.
Definition data64 : seg := as_seg 0x10 0x0000920000000000.
Record after_pg (s s' : cpu) : Prop := {
  c_mem : mem s' = tables (mem s);
  c_cr0 : cr0 s' = N.setbit (N.setbit (N.setbit (cr0 s) 0) 31) 16; c_cr3 : cr3 s' = 0x90000; c_cr4 : cr4 s' = N.setbit (cr4 s) 5;
  c_efer : forall b, N.testbit (efer s') b = N.testbit (efer s) b || (b =? 8) || (b =? 10);
  c_cs : cs s' = code64; c_sr : forall r, sr s' r = data64; c_rip : rip s' = 0x100000;
  c_intr : intr s' = intr s; c_gl : snd (gdtr s') = 23; c_gd : exists g, alias (fst (gdtr s')) g /\ g + 24 <= 0x20000 /\ 0x10000 <= g /\
    holds_at (mem s') (g + 16) 8 0x0000920000000000
}.
Lemma efer_parts e : e < 2 ^ 64 -> low32 (N.setbit (low32 (low32 e)) 8) + 2 ^ 32 * low32 (e / 2 ^ 32) = N.setbit e 8.
Proof.
  intros He. unfold low32. rewrite N.mod_mod by lia.
  rewrite (N.mod_small (e / 2 ^ 32)) by (apply N.div_lt_upper_bound; [lia|exact He]).
  rewrite (N.mod_small (N.setbit _ 8)) by (apply setbit_lt; [apply N.mod_lt; lia|lia]).
  assert (N.setbit (e mod 2 ^ 32) 8 + 2 ^ 32 * (e / 2 ^ 32) = N.lor (N.setbit (e mod 2 ^ 32) 8) (N.shiftl (e / 2 ^ 32) 32)) as ->.
  { rewrite N.shiftl_mul_pow2, (N.mul_comm (e / 2 ^ 32)), N.add_nocarry_lxor, N.lxor_lor; [reflexivity| |];
      rewrite (N.mul_comm (2 ^ 32)), <- N.shiftl_mul_pow2; apply N.bits_inj; intros k; rewrite N.land_spec, N.bits_0;
      (destruct (N.ltb_spec k 32) as [Hk|Hk];
       [rewrite N.shiftl_spec_low, andb_false_r by exact Hk; reflexivity|
        rewrite N.setbit_eqb, N.mod_pow2_bits_high by exact Hk; replace (8 =? k) with false by lia; reflexivity]). }
  apply N.bits_inj. intros k. rewrite N.lor_spec, !N.setbit_eqb.
  destruct (N.ltb_spec k 32) as [Hk|Hk].
  - rewrite N.shiftl_spec_low, N.mod_pow2_bits_low, orb_false_r by exact Hk. reflexivity.
  - rewrite N.mod_pow2_bits_high, N.shiftl_spec_high by lia. rewrite N.div_pow2_bits. replace (k - 32 + 32) with k by lia.
    rewrite orb_false_r. reflexivity.
Qed.

Lemma block_ex at_ ph k i is s s' (P : cpu -> Prop) :
  translate s (at_ + k) false = Go (ph + k) -> exec at_ i s = Go s' ->
  (exists r, block at_ ph (k + 1) is s' = Go r /\ P r) -> exists r, block at_ ph k (i :: is) s = Go r /\ P r.
Proof. intros E1 E2 (r & E3 & Hr). exists r. split; [|exact Hr]. eapply block_step; eassumption. Qed.
Lemma protect2_ok L s : layout_ok L -> loader_in L (mem s) -> in32 s -> cs s = flat_code -> sr s DS = flat_data ->
  (N.testbit (cr0 s) 29 = true -> N.testbit (cr0 s) 30 = true) -> cr0 s < 2 ^ 32 -> cr4 s < 2 ^ 32 -> efer s < 2 ^ 64 ->
  N.testbit (cr4 s) 12 = false -> N.testbit (cr4 s) 17 = false ->
  exists s', block (l_protect L + 9) (l_protect L + 9) 0 (protect2 L) s = Go s' /\ after_pg s s'.
Proof.
  intros LO LI I C D H29 H0 H4 He H12 H17.
  pose proof (lo_protect L LO) as Lq. pose proof (lo_p64 L LO) as Lp. pose proof (lo_g64 L LO) as Lg.
  assert (forall m, in32 (with_mem m s)) as Im by (intros m; exact I).
  assert (forall at_ m a v, a + 3 <= 4294967295 -> exec at_ (Put a v) (with_mem m s) = Go (with_mem (put m a 4 v) s)) as Pu.
  { intros at_ m a v Ha. rewrite (put32 at_ a v (with_mem m s)); [reflexivity|apply Im| | |exact Ha];
      cbn [with_mem sr]; rewrite D; reflexivity. }
  assert (forall m at_ a, translate (with_mem m s) at_ a = Go at_) as Fm by (intros; apply tr_real, I).
  unfold protect2.
  eapply block_ex; [apply fetch32, I|apply put32; [exact I|rewrite D; reflexivity|rewrite D; reflexivity|vm_compute; discriminate]|].
  do 17 (eapply block_ex; [apply Fm|apply Pu; vm_compute; discriminate|]).
  fold (tables (mem s)). set (m := tables (mem s)).
  assert (forall a n v, 0x10000 <= a -> a + n <= 0x20000 -> holds_at (mem s) a n v -> holds_at m a n v) as K.
  { intros a n v Ha Hn H. eapply holds_ext; [exact H|]. intros i Hi. apply tables_out. lia. }
  set (s1 := with_gdtr (l_gdt64 L, 23) (with_mem m s)).
  eapply block_ex; [apply Fm| |].
  { cbn [exec]. unfold linear. rewrite in32_mode by apply Im. cbn [with_mem sr]. rewrite D. cbn [limit base flat_data].
    replace (l_gdt64ptr L + 6 - 1 <=? 4294967295) with true by lia. cbn [rbind].
    unfold load_table. rewrite !rdl_real by apply Im. rewrite in32_mode by apply Im. cbn [rbind with_mem mem].
    rewrite N.mod_small by lia. rewrite N.add_0_l.
    rewrite (rd2 _ _ 23), (rd4 _ _ (l_gdt64 L)); [reflexivity| | | |]; try lia; apply K; try lia; apply LI. }
  fold s1. assert (in32 s1) as I1 by exact I.
  set (d := data64).
  set (s2 := with_rax (low16 (rax s1) 0x10) s1).
  assert (forall at_ r s', in32 s' -> rax s' = rax s2 -> gdtr s' = gdtr s1 -> mem s' = m ->
    exec at_ (MovSr r) s' = Go (with_sr r d s')) as M.
  { intros at_ r s' I' A' G' M'. apply mov_sr32; [exact I'|rewrite A'; apply low16_sel|rewrite G'; reflexivity| |right; reflexivity].
    rewrite G', M'. cbn [s1 with_gdtr gdtr fst]. apply K; [lia|lia|apply LI]. }
  eapply block_ex; [apply fetch32; exact I|reflexivity|]. fold s2.
  do 5 (eapply block_ex; [apply fetch32; exact I|apply M; [exact I|reflexivity|reflexivity|reflexivity]|]).
  set (s3 := with_sr SS d (with_sr GS d (with_sr FS d (with_sr ES d (with_sr DS d s2))))).
  eapply block_ex; [apply fetch32; exact I|reflexivity|].
  set (s4 := with_rsp 32256 s3). assert (in32 s4) as I4 by exact I.
  eapply block_ex; [apply fetch32; exact I| |].
  { cbn [exec]. change (4 =? 0) with false. change (4 =? 4) with true. cbn iota. unfold width. rewrite in32_mode by exact I4.
    change (cr4 s4) with (cr4 s). rewrite low32_small by exact H4. reflexivity. }
  eapply block_ex; [apply fetch32; exact I| |].
  { cbn [exec with_rax with_regs rax]. rewrite low32_small by exact H4. reflexivity. }
  set (c4 := N.setbit (cr4 s) 5).
  set (s5 := with_cr4 c4 (with_rax c4 (with_rax (cr4 s) s4))).
  assert (c4 < 2 ^ 32) as Hc4 by (apply setbit_lt; [exact H4|lia]).
  eapply block_ex; [apply fetch32; exact I| |].
  { cbn [exec]. change (4 =? 0) with false. change (4 =? 3) with false. change (4 =? 4) with true. cbn iota. unfold width.
    rewrite in32_mode by exact I4. cbn [with_rax with_regs rax]. rewrite low32_small by exact Hc4. unfold set_cr4.
    replace (lma _) with false by (symmetry; apply I4). cbn [negb orb].
    unfold c4. rewrite !N.setbit_eqb, H12, H17. cbn [negb andb orb N.eqb Pos.eqb]. reflexivity. }
  fold s4. change (with_cr4 (N.setbit (cr4 s) 5) (with_rax c4 (with_rax (cr4 s) s4))) with s5.
  eapply block_ex; [apply fetch32; exact I|reflexivity|].
  eapply block_ex; [apply fetch32; exact I| |].
  { cbn [exec]. change (3 =? 0) with false. change (3 =? 3) with true. cbn iota. unfold width.
    rewrite in32_mode by exact I4. reflexivity. }
  change (low32 (rax (with_rax 589824 s5))) with 0x90000.
  set (s6 := with_cr3 0x90000 (with_rax 0x90000 s5)). assert (in32 s6) as I6 by exact I.
  eapply block_ex; [apply fetch32; exact I|reflexivity|].
  eapply block_ex; [apply fetch32; exact I|reflexivity|].
  eapply block_ex; [apply fetch32; exact I|reflexivity|].
  set (e1 := N.setbit (efer s) 8).
  assert (N.testbit (efer s) 10 = false) as E10 by apply I.
  assert (N.testbit e1 8 = true) as E18 by (unfold e1; rewrite N.setbit_eqb; reflexivity).
  eapply block_ex; [apply fetch32; exact I| |].
  { cbn [exec]. change (rcx _ =? 0xC0000080) with true. cbn iota. cbn [with_rax with_regs rax rdx rcx].
    change (efer s6) with (efer s). rewrite efer_parts by exact He. fold e1. unfold set_efer.
    replace (paging _) with false by (symmetry; apply I6). replace (lma _) with false by (symmetry; apply I6).
    cbn [negb orb]. cbn iota. reflexivity. }
  set (e2 := N.clearbit e1 10).
  assert (e2 = e1) as Ee.
  { apply N.bits_inj. intros k. unfold e2, e1. rewrite N.clearbit_eqb, N.setbit_eqb. destruct (N.eqb_spec 10 k) as [<-|]; [|rewrite andb_true_r; reflexivity].
    rewrite E10. reflexivity. }
  match goal with |- context [with_efer ?e ?x] => change e with e2; set (s7 := with_efer e2 x) end.
  assert (in32 s7) as I7.
  { split; [apply I|]. split; [apply I|]. split; [|apply I]. unfold lma. change (efer s7) with e2. rewrite Ee. unfold e1.
    rewrite N.setbit_eqb. exact E10. }
  set (c0 := cr0 s).
  eapply block_ex; [apply fetch32; exact I7| |].
  { cbn [exec]. change (0 =? 0) with true. cbn iota. unfold width. rewrite in32_mode by exact I7.
    change (cr0 s7) with c0. rewrite low32_small by exact H0. reflexivity. }
  eapply block_ex; [apply fetch32; exact I7| |].
  { cbn [exec with_rax with_regs rax]. rewrite low32_small by exact H0. reflexivity. }
  assert (N.setbit c0 0 < 2 ^ 32) as B1 by (apply setbit_lt; [exact H0|lia]).
  assert (N.setbit (N.setbit c0 0) 31 < 2 ^ 32) as B2 by (apply setbit_lt; [exact B1|lia]).
  assert (N.setbit (N.setbit (N.setbit c0 0) 31) 16 < 2 ^ 32) as B3 by (apply setbit_lt; [exact B2|lia]).
  eapply block_ex; [apply fetch32; exact I7| |].
  { cbn [exec with_rax with_regs rax]. rewrite low32_small by exact B1. reflexivity. }
  eapply block_ex; [apply fetch32; exact I7| |].
  { cbn [exec with_rax with_regs rax]. rewrite low32_small by exact B2. reflexivity. }
  set (c1 := N.setbit (N.setbit (N.setbit c0 0) 31) 16) in *.
  match goal with |- context [with_rax c1 ?x] => set (s8 := with_rax c1 x) end.
  assert (in32 s8) as I8 by exact I7.
  assert (N.testbit c1 31 = true) as C31 by (unfold c1; rewrite !N.setbit_eqb; reflexivity).
  assert (N.testbit c1 0 = true) as C0 by (unfold c1; rewrite !N.setbit_eqb; reflexivity).
  set (e3 := N.setbit e2 10).
  eapply block_ex; [apply fetch32; exact I7| |].
  { cbn [exec]. change (0 =? 0) with true. cbn iota. unfold width. rewrite in32_mode by exact I8. change (rax s8) with c1.
    rewrite low32_small by exact B3. unfold set_cr0. rewrite C31, C0. cbn [negb orb].
    replace (negb (N.testbit c1 29) || N.testbit c1 30) with true.
    2:{ unfold c1. rewrite !N.setbit_eqb. change (cr0 s) with c0 in H29. change (16 =? 29) with false. change (31 =? 29) with false.
        change (0 =? 29) with false. change (16 =? 30) with false. change (31 =? 30) with false. change (0 =? 30) with false. cbn [orb].
        destruct (N.testbit c0 29); [rewrite H29; reflexivity|reflexivity]. }
    replace (paging s8) with false by (symmetry; apply I8).
    change (efer s8) with e2. rewrite Ee at 1. rewrite E18.
    change (cr4 s8) with c4. replace (N.testbit c4 5) with true by (unfold c4; rewrite N.setbit_eqb; reflexivity).
    change (cs s8) with (cs s). rewrite C. reflexivity. }
  fold e3. set (s9 := with_cr0 c1 e3 s8).
  assert (tabled s9) as T9.
  { split; [exact C31|]. split. { unfold lma. change (efer s9) with e3. unfold e3. rewrite N.setbit_eqb. reflexivity. }
    left. split; [reflexivity|]. apply tables_temp. }
  pose proof (tabled_maps s9 T9) as M9.
  set (s10 := with_cs code64 0x100000 s9).
  exists s10. split.
  - eapply block_step; [apply (maps_at s9 _ _ false M9); [left; reflexivity|lia]| |reflexivity].
    cbn [exec]. unfold load_cs. assert (protected s9 = true) as -> by exact C0. change (8 <? 4) with false. cbn [negb].
    assert (descriptor s9 8 = Go 0x0020980000000000) as ->.
    { unfold descriptor. change (gdtr s9) with (l_gdt64 L, 23). cbn [fst snd]. change (negb (N.testbit 8 2)) with true.
      change (8 * (8 / 8) + 7 <=? 23) with true. cbn iota. change (8 * (8 / 8)) with 8.
      rewrite (rdl_maps s9 8 M9 _ (l_gdt64 L + 8)) by (try (left; reflexivity); change (N.of_nat 8) with 8; lia).
      change (mem s9) with m. rewrite (rd8 _ _ 0x0020980000000000); [reflexivity| |reflexivity]. apply K; [lia|lia|apply LI]. }
    cbn [rbind]. assert (cpl s9 = 0) as ->.
    { unfold cpl. assert (protected s9 = true) as -> by exact C0. apply I. }
    assert (lma s9 = true) as -> by apply T9. reflexivity.
  - split; try reflexivity.
    + intros b. change (efer s10) with e3. unfold e3. rewrite Ee. unfold e1. rewrite !N.setbit_eqb.
      rewrite (N.eqb_sym 10 b), (N.eqb_sym 8 b). destruct (b =? 10), (b =? 8), (N.testbit (efer s) b); reflexivity.
    + intros r. destruct r; reflexivity.
    + exists (l_gdt64 L). split; [left; reflexivity|]. split; [lia|]. split; [lia|]. change (mem s10) with m. apply K; [lia|lia|apply LI].
Qed.
