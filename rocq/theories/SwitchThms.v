(** The way into long mode as a whole. *)
From stdpp Require Import list.
From Coq Require Import NArith Lia ZifyBool ZifyNat ZifyN.
From Verif Require Import PagingModel PagingSpec PagingProofs SwitchModel SwitchSpec SwitchProofs SwitchRun SwitchRun2 SwitchRun3.
Local Open Scope N_scope.

(** head.S:34-45 *)
Record after_entry (L : layout) (s s' : cpu) : Prop := {
  f_mem : mem s' = put (put (mem s) 0x7DF8 8 8) 0x7DF0 8 (high + (image + k_main L));
  f_cr0 : cr0 s' = cr0 s; f_cr3 : cr3 s' = cr3 s; f_cr4 : cr4 s' = cr4 s; f_efer : efer s' = efer s;
  f_cs : cs s' = code64; f_sr : forall r, r = FS \/ sr s' r = data64; f_fs : sr s' FS = sr s FS;
  f_rip : rip s' = high + (image + k_main L); f_rsp : rsp s' = 0xFFFF800000007E00;
  f_gdtr : gdtr s' = gdtr s; f_idtr : idtr s' = idtr s; f_intr : intr s' = intr s
}.
Lemma entry_ok L s : layout_ok L -> kernel_in L (mem s) -> in64 s -> rip s = high + (image + k_entry64 L) ->
  gdtr s = (high + image + k_gdt L, 135) ->
  exists s', enter (image + k_entry64 L) (entry64 L) s = Go s' /\ after_entry L s s'.
Proof.
  intros LO K I R G. pose proof (lo_kg L LO) as Hkg. pose proof (lo_m L LO) as Hm. pose proof (lo_e L LO) as He. pose proof (lo_sk L LO) as Hs.
  set (e := image + k_entry64 L) in *.
  assert (here s = high + e) as Hh by (unfold here; rewrite (i_l s I); exact R).
  assert (alias (high + e) e) as Ae by (right; reflexivity).
  assert (gdt_at s (image + k_gdt L)) as G1.
  { unfold gdt_at. rewrite G. cbn [fst snd]. split; [right; lia|]. split; [unfold image; lia|lia]. }
  set (d := data64). set (s1 := with_rax 0x10 s).
  set (s2 := with_rsp 0xFFFF800000007E00 (with_sr SS d (with_sr GS d (with_sr ES d (with_sr DS d s1))))).
  set (t := high + (image + k_main L)). set (s3 := with_rax t s2).
  assert (in64 s2) as I2 by exact I. assert (in64 s3) as I3 by exact I.
  assert (forall k, k < 100 -> forall s', in64 s' -> translate s' (high + e + k) false = Go (e + k)) as F.
  { intros k Hk s' I'. apply fetch64; [exact I'|apply alias_add, Ae|unfold e, image; lia]. }
  assert (forall at_ r s', in64 s' -> gdtr s' = gdtr s -> mem s' = mem s -> rax s' = 0x10 ->
    exec at_ (MovSr r) s' = Go (with_sr r d s')) as M.
  { intros at_ r s' I' G' M' A'.
    apply (mov_sr64 at_ r s' (image + k_gdt L)); [exact I'|unfold gdt_at; rewrite G'; exact G1|rewrite A'; reflexivity|].
    rewrite M'. apply K. }
  exists (returned s3 0xFFFF800000007DF0 0x7DF0 t). split.
  - apply enter_block; [rewrite Hh; apply fetch64; [exact I|exact Ae|unfold e, image; lia]|]. rewrite Hh. unfold entry64.
    eapply block_step; [apply F; [reflexivity|exact I]|reflexivity|]. fold s1.
    do 4 (eapply block_step; [apply F; [reflexivity|exact I]|apply M; [exact I|reflexivity|reflexivity|reflexivity]|]).
    eapply block_step; [apply F; [reflexivity|exact I]|reflexivity|].
    change (with_rsp _ _) with s2.
    eapply block_step; [apply F; [reflexivity|exact I]| |].
    { cbn [exec]. rewrite (i_l s2 I2).
      rewrite (rdl_maps s2 8 (in64_maps s2 I2) _ (image + k_startkernel L)).
      - rewrite (rd8 _ _ (high + image + k_main L)); [reflexivity|apply K|unfold high, image; lia].
      - right. unfold e. lia.
      - change (N.of_nat 8) with 8. unfold image. lia. }
    cbn [rbind]. replace (high + image + k_main L) with t by (unfold t; lia). change (with_rax t s2) with s3.
    apply (far_return (high + e) e _ s3 0xFFFF800000007DF0 0x7DF0 t (image + k_gdt L)); try reflexivity.
    + exact I3.
    + exact G1.
    + unfold t, high, image. lia.
    + unfold t. apply canonical_high. unfold image. lia.
    + right. reflexivity.
    + vm_compute. discriminate.
    + unfold image. lia.
    + apply K.
    + exact Ae.
    + unfold e, image. lia.
  - split; try reflexivity. intros r. destruct r; try (right; reflexivity). left; reflexivity.
Qed.

Lemma support_has cpuid : negb (support_long_mode cpuid =? 0) = has_long_mode cpuid.
Proof.
  unfold support_long_mode, has_long_mode. destruct (N.ltb_spec (fst (cpuid 0x80000000)) 0x80000001) as [H|H].
  - replace (0x80000001 <=? fst (cpuid 0x80000000)) with false by lia. reflexivity.
  - replace (0x80000001 <=? fst (cpuid 0x80000000)) with true by lia. destruct (N.testbit (snd (cpuid 0x80000001)) 29); reflexivity.
Qed.

Lemma loader_frame L m m' : layout_ok L -> loader_in L m -> (forall a, 0x10000 <= a < 0x20000 -> m' a = m a) -> loader_in L m'.
Proof.
  intros LO K F. destruct LO.
  split; (eapply holds_ext; [apply K|]); intros j Hj; apply F; lia.
Qed.

Section Whole.
Context (L : layout) (cpuid : N -> N * N) (ret : N) (s : cpu).
Context (LO : layout_ok L) (LI : loader_in L (mem s)) (KI : kernel_in L (mem s)) (RM : real_mode L s).

(** up to the answer of cpuid *)
Record half (s2 : cpu) : Prop := {
  h_mem : mem s2 = put (mem s) 0x7DFC 4 ret; h_cr0 : cr0 s2 = N.setbit (cr0 s) 0; h_cr4 : cr4 s2 = cr4 s; h_efer : efer s2 = efer s;
  h_cs : cs s2 = flat_code; h_ds : sr s2 DS = flat_data; h_intr : intr s2 = false
}.
Lemma first_half : exists s1 s2, half s2 /\ enter (l_tail L) (tail16 L) s = Go s1 /\
  rbind (enter (l_protect L) protect1 s1) (check cpuid ret) = Go (has_long_mode cpuid, s2).
Proof.
  destruct (tail16_ok L s LO LI RM) as (s1 & E1 & A1).
  assert (in32 s1) as I1.
  { unfold in32, protected, paging, lma. rewrite (a_cr0 _ _ _ A1), (a_efer _ _ _ A1), (a_cs _ _ _ A1), !N.setbit_eqb.
    split; [reflexivity|]. split; [apply RM|]. split; [apply RM|reflexivity]. }
  assert (loader_in L (mem s1)) as L1 by (rewrite (a_mem _ _ _ A1); exact LI).
  destruct (protect1_ok L s1 cpuid ret LO L1 I1 (a_cs _ _ _ A1) (a_rip _ _ _ A1) (a_gdtr _ _ _ A1)) as (s2 & E2 & A2).
  exists s1, s2. split; [|split].
  - destruct A1, A2. split; congruence.
  - exact E1.
  - rewrite E2, support_has. reflexivity.
Qed.
Lemma half_in32 s2 : half s2 -> in32 s2.
Proof.
  intros A. unfold in32, protected, paging, lma. rewrite (h_cr0 _ A), (h_efer _ A), (h_cs _ A), !N.setbit_eqb.
  split; [reflexivity|]. split; [apply RM|]. split; [apply RM|reflexivity].
Qed.
Lemma boot_unfold s1 s2 : enter (l_tail L) (tail16 L) s = Go s1 ->
  rbind (enter (l_protect L) protect1 s1) (check cpuid ret) = Go (has_long_mode cpuid, s2) ->
  boot L cpuid ret s = if has_long_mode cpuid then
    s <- block (l_protect L + 9) (l_protect L + 9) 0 (protect2 L) s2;;
    s <- enter image (start_ L) s;;
    s <- enter (image + k_entry64 L) (entry64 L) s;;
    p <- translate s (here s) false;;
    assert (p =? image + k_main L) or Astray;;
    Go (Main s)
  else Go (NoLongMode s2).
Proof.
  intros E1 E2. unfold boot. rewrite E1. cbn [rbind].
  destruct (enter (l_protect L) protect1 s1) as [x|]; [|discriminate]. cbn [rbind] in *. rewrite E2. reflexivity.
Qed.
Theorem boot_main : has_long_mode cpuid = true -> exists s', boot L cpuid ret s = Go (Main s') /\ ready L s s'.
Proof.
  intros HL. destruct first_half as (s1 & s2 & A & E1 & E2). rewrite (boot_unfold s1 s2 E1 E2), HL. clear E1 E2.
  assert (forall a, 0x10000 <= a -> mem s2 a = mem s a) as M2.
  { intros a Ha. rewrite (h_mem _ A). apply put_out. change (N.of_nat 4) with 4. lia. }
  destruct (protect2_ok L s2) as (s3 & E3 & B).
  { exact LO. }
  { apply (loader_frame L (mem s)); [exact LO|exact LI|]. intros a Ha. apply M2. lia. }
  { apply half_in32, A. }
  { apply A. }
  { apply A. }
  { rewrite (h_cr0 _ A), !N.setbit_eqb. apply RM. }
  { rewrite (h_cr0 _ A). apply setbit_lt; [apply RM|lia]. }
  { rewrite (h_cr4 _ A). apply RM. }
  { rewrite (h_efer _ A). apply RM. }
  { rewrite (h_cr4 _ A). apply RM. }
  { rewrite (h_cr4 _ A). apply RM. }
  rewrite E3. cbn [rbind]. clear E3.
  assert (forall a, 0x100000 <= a -> mem s3 a = mem s a) as M3.
  { intros a Ha. rewrite (c_mem _ _ B), tables_out by lia. apply M2. lia. }
  pose proof (kernel_frame L _ _ LO KI M3) as K3.
  assert (N.testbit (cr0 s3) 0 = true /\ N.testbit (cr0 s3) 31 = true) as (P0 & P31).
  { rewrite (c_cr0 _ _ B), !N.setbit_eqb. split; reflexivity. }
  assert (lma s3 = true) as Lm.
  { unfold lma. rewrite (c_efer _ _ B). rewrite orb_true_r. reflexivity. }
  assert (in64 s3) as I3.
  { split; [|split; [exact P0|]].
    - split; [exact P31|]. split; [exact Lm|]. left. split; [apply B|]. rewrite (c_mem _ _ B). apply tables_temp.
    - unfold mode64. rewrite Lm, (c_cs _ _ B). split; reflexivity. }
  destruct (c_gd _ _ B) as (g & Ga & G1 & G2 & G3).
  destruct (start_ok L s3 g LO K3 I3 (c_rip _ _ B)) as (s4 & E4 & C).
  { split; [exact Ga|]. split; [lia|]. rewrite (c_gl _ _ B). lia. }
  { exact G3. }
  rewrite E4. cbn [rbind]. clear E4.
  assert (forall a, 0x100000 <= a -> mem s4 a = mem s a) as M4.
  { intros a Ha. rewrite (e_mem _ _ _ C), !put_out by (change (N.of_nat 8) with 8; lia). apply M3, Ha. }
  pose proof (kernel_frame L _ _ LO KI M4) as K4.
  assert (in64 s4) as I4.
  { unfold in64, tabled, protected, paging, mode64, lma in *.
    rewrite (e_cr0 _ _ _ C), (e_efer _ _ _ C), (e_cs _ _ _ C), (e_cr3 _ _ _ C), Lm.
    split; [|split; [exact P0|split; reflexivity]]. split; [exact P31|]. split; [reflexivity|]. right. split; [reflexivity|].
    split; apply K4. }
  destruct (entry_ok L s4 LO K4 I4) as (s5 & E5 & D).
  { rewrite (e_rip _ _ _ C). lia. }
  { apply C. }
  rewrite E5. cbn [rbind]. clear E5.
  pose proof (lo_m L LO) as Hm.
  assert (forall a, 0x100000 <= a -> mem s5 a = mem s a) as M5.
  { intros a Ha. rewrite (f_mem _ _ _ D), !put_out by (change (N.of_nat 8) with 8; lia). apply M4, Ha. }
  assert (in64 s5) as I5.
  { unfold in64, tabled, protected, paging, mode64, lma in *.
    rewrite (f_cr0 _ _ _ D), (f_efer _ _ _ D), (f_cs _ _ _ D), (f_cr3 _ _ _ D), (e_cr0 _ _ _ C), (e_efer _ _ _ C), (e_cr3 _ _ _ C), Lm.
    split; [|split; [exact P0|split; reflexivity]]. split; [exact P31|]. split; [reflexivity|]. right. split; [reflexivity|].
    pose proof (kernel_frame L _ _ LO KI M5) as K5. split; apply K5. }
  assert (here s5 = high + (image + k_main L)) as Hh.
  { unfold here. rewrite (i_l s5 I5). apply D. }
  exists s5. split.
  - rewrite Hh, (fetch64 s5 _ (image + k_main L) I5); [|right; reflexivity|unfold image; lia]. cbn [rbind]. rewrite N.eqb_refl. reflexivity.
  - split.
    + intros b. rewrite (f_cr0 _ _ _ D), (e_cr0 _ _ _ C), (c_cr0 _ _ B), (h_cr0 _ A), !N.setbit_eqb.
      rewrite (N.eqb_sym 16), (N.eqb_sym 31), (N.eqb_sym 0). destruct (b =? 0), (b =? 16), (b =? 31), (N.testbit (cr0 s) b); reflexivity.
    + intros b. rewrite (f_cr4 _ _ _ D), (e_cr4 _ _ _ C), (c_cr4 _ _ B), (h_cr4 _ A), !N.setbit_eqb.
      rewrite (N.eqb_sym 5). apply orb_comm.
    + intros b. rewrite (f_efer _ _ _ D), (e_efer _ _ _ C), (c_efer _ _ B), (h_efer _ A). reflexivity.
    + rewrite (f_cr3 _ _ _ D). apply C.
    + rewrite (f_cs _ _ _ D). split; reflexivity.
    + intros r. assert (sr s5 r = data64) as ->; [|split; reflexivity].
      destruct (f_sr _ _ _ D r) as [-> | E]; [|exact E]. rewrite (f_fs _ _ _ D). apply C.
    + apply D.
    + rewrite (f_rip _ _ _ D). lia.
    + rewrite (f_gdtr _ _ _ D). apply C.
    + rewrite (f_idtr _ _ _ D). apply C.
    + rewrite (f_intr _ _ _ D), (e_intr _ _ _ C), (c_intr _ _ B). apply A.
    + apply (temp_frame (mem s3)); [rewrite (c_mem _ _ B); apply tables_temp|]. intros a Ha. unfold is_table in Ha.
      rewrite (f_mem _ _ _ D), (e_mem _ _ _ C), !put_out by (change (N.of_nat 8) with 8; lia). reflexivity.
    + pose proof (kernel_frame L _ _ LO KI M5) as K5. split; apply K5.
    + intros a H1 H2. rewrite (f_mem _ _ _ D), (e_mem _ _ _ C), !put_out by (change (N.of_nat 8) with 8; lia).
      rewrite (c_mem _ _ B), tables_out, (h_mem _ A) by exact H1. apply put_out. change (N.of_nat 4) with 4. lia.
Qed.
Theorem boot_no_long_mode : has_long_mode cpuid = false ->
  exists s', boot L cpuid ret s = Go (NoLongMode s') /\ paging s' = false /\ (forall b, N.testbit (cr0 s') b = N.testbit (cr0 s) b || (b =? 0)) /\
    cr4 s' = cr4 s /\ efer s' = efer s.
Proof.
  intros HL. destruct first_half as (s1 & s2 & A & E1 & E2). rewrite (boot_unfold s1 s2 E1 E2), HL.
  exists s2. split; [reflexivity|]. split; [apply half_in32, A|]. split; [|split; apply A].
  intros b. rewrite (h_cr0 _ A), N.setbit_eqb, (N.eqb_sym 0). apply orb_comm.
Qed.
End Whole.

(** ** the two sets of tables agree *)
Theorem tables_agree m va o : temp_tables m -> boot_tables m -> va < 2 ^ 64 -> window_offset va = Some o -> o < 0xa00000 ->
  walk_at 0x90000 (quads m) va = walk_at 0x101000 (quads m) va /\
  walk_at 0x101000 (quads m) va = Some {| phys := o; writable := true; user := false |}.
Proof.
  intros T B Hva W Ho. rewrite (temp_walk m va o T Hva W) by lia.
  rewrite walk_at_boot, boot_same, boot_walk_spec by assumption. unfold expected_phys. rewrite W.
  replace (o <? 0xa00000) with true by lia. split; reflexivity.
Qed.
Theorem tables_differ m : temp_tables m -> boot_tables m ->
  walk_at 0x90000 (quads m) 0xa00000 = Some {| phys := 0xa00000; writable := true; user := false |} /\
  walk_at 0x101000 (quads m) 0xa00000 = Some {| phys := 0xe0000000; writable := true; user := false |}.
Proof.
  intros T B. split; [apply temp_walk; [exact T|reflexivity|reflexivity|reflexivity]|].
  rewrite walk_at_boot, boot_same, boot_walk_spec by (try exact B; reflexivity). reflexivity.
Qed.
Lemma stack_misaligned L s s' : ready L s s' -> (rsp s' + 8) mod 16 <> 0.
Proof. intros R. rewrite (rd_rsp _ _ _ R). vm_compute. discriminate. Qed.
