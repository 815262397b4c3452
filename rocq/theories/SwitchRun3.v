(** Symbolic execution of the way into long mode: head.S and the whole. *)
From stdpp Require Import list.
From Coq Require Import NArith Lia ZifyBool ZifyNat ZifyN.
From Verif Require Import PagingModel PagingSpec PagingProofs SwitchModel SwitchSpec SwitchProofs SwitchRun SwitchRun2.
Local Open Scope N_scope.

(** ** 64-bit mode *)
Definition in64 (s : cpu) : Prop := tabled s /\ protected s = true /\ mode64 s = true /\ N.land (sel (cs s)) 3 = 0.
Lemma i_tab s : in64 s -> tabled s. Proof. intros H. apply H. Qed.
Lemma i_pe s : in64 s -> protected s = true. Proof. intros H. apply H. Qed.
Lemma i_l s : in64 s -> mode64 s = true. Proof. intros H. apply H. Qed.
Lemma in64_cpl s : in64 s -> cpl s = 0.
Proof. intros H. unfold cpl. rewrite (i_pe s H). apply H. Qed.
Lemma in64_maps s : in64 s -> maps s. Proof. intros H. apply tabled_maps, H. Qed.
(** the descriptor table in use: its lowest three descriptors and where they are *)
Definition gdt_at (s : cpu) (g : N) : Prop := alias (fst (gdtr s)) g /\ g + 24 <= 0xa00000 /\ 23 <= snd (gdtr s).
Lemma desc64 s g v d : in64 s -> gdt_at s g -> v = 8 \/ v = 16 -> holds_at (mem s) (g + v) 8 d -> d < 18446744073709551616 ->
  descriptor s v = Go d.
Proof.
  intros I (A & Hg & Hl) Hv H Hd. unfold descriptor.
  assert (8 * (v / 8) = v) as -> by (destruct Hv as [-> | ->]; reflexivity).
  assert (N.testbit v 2 = false) as -> by (destruct Hv as [-> | ->]; reflexivity). cbn [negb].
  replace (v + 7 <=? snd (gdtr s)) with true by lia.
  rewrite (rdl_maps s 8 (in64_maps s I) _ (g + v)); [|apply alias_add, A|change (N.of_nat 8) with 8; lia].
  rewrite (rd8 _ _ d H Hd). reflexivity.
Qed.
Lemma mov_sr64 at_ r s g : in64 s -> gdt_at s g -> rax s mod 2 ^ 16 = 0x10 -> holds_at (mem s) (g + 16) 8 0x0000920000000000 ->
  exec at_ (MovSr r) s = Go (with_sr r data64 s).
Proof.
  intros I G A H. cbn [exec]. rewrite A. apply desc_ok; try reflexivity.
  - apply (desc64 s g); [exact I|exact G|right; reflexivity|exact H|reflexivity].
  - apply I.
  - apply in64_cpl, I.
  - right. reflexivity.
Qed.
Lemma fetch64 s va o : in64 s -> alias va o -> o < 0xa00000 -> translate s va false = Go o.
Proof. intros I A H. apply maps_at; [apply in64_maps, I|exact A|exact H]. Qed.
Lemma table64 s va o l b : in64 s -> alias va o -> o + 10 <= 0xa00000 -> holds_at (mem s) o 2 l -> l < 65536 ->
  holds_at (mem s) (o + 2) 8 b -> b < 18446744073709551616 -> load_table s va = Go (b, l).
Proof.
  intros I A Ho Hl Ll Hb Lb. unfold load_table. rewrite (i_l s I).
  rewrite (rdl_maps s 2 (in64_maps s I) _ o) by (try exact A; change (N.of_nat 2) with 2; lia). cbn [rbind].
  rewrite (rdl_maps s 8 (in64_maps s I) _ (o + 2)) by (try (apply alias_add, A); change (N.of_nat 8) with 8; lia). cbn [rbind].
  rewrite (rd2 _ _ l Hl Ll), (rd8 _ _ b Hb Lb). reflexivity.
Qed.
Lemma in64_mem s m : in64 s -> (forall a, is_table a -> m a = mem s a) -> in64 (with_mem m s).
Proof.
  intros I F. split; [|apply I]. destruct (i_tab s I) as (P & Lm & T). split; [exact P|]. split; [exact Lm|].
  destruct T as [[E T]|[E T]]; [left|right]; (split; [exact E|]); [eapply temp_frame|eapply boot_frame]; try exact T; exact F.
Qed.
Lemma push64 v s va o : in64 s -> rsp s = va + 8 -> va + 8 < 2 ^ 64 -> alias va o -> o + 8 <= 0x90000 ->
  push v s = Go (with_rsp va (with_mem (put (mem s) o 8 v) s)).
Proof.
  intros I R Hv A Ho. unfold push, save, linear. rewrite (i_l s I), R. replace (va + 8 - 8) with va by lia.
  rewrite N.mod_small by lia. cbn [rbind]. rewrite (wrl_tabled 8 s va o); [reflexivity|apply I|exact A|exact Ho].
Qed.
Lemma pop64 s o v : in64 s -> alias (rsp s) o -> o + 8 <= 0xa00000 -> holds_at (mem s) o 8 v -> v < 18446744073709551616 ->
  pop s = Go (v, with_rsp ((rsp s + 8) mod 2 ^ 64) s).
Proof.
  intros I A Ho H Hv. unfold pop, load, linear. rewrite (i_l s I). cbn [rbind].
  rewrite (rdl_maps s 8 (in64_maps s I) _ o A Ho). rewrite (rd8 _ _ v H Hv). reflexivity.
Qed.
Lemma put8_table m o v a : o + 8 <= 0x90000 -> is_table a -> put m o 8 v a = m a.
Proof. intros Ho H. apply put_out. change (N.of_nat 8) with 8. unfold is_table in H. lia. Qed.
(** pushq $8; pushq %rax; lretq *)
Definition returned (s : cpu) (va o tgt : N) : cpu :=
  with_cs code64 tgt (with_rsp (va + 16) (with_mem (put (put (mem s) (o + 8) 8 8) o 8 tgt) s)).
Lemma far_return at_ ph k s va o tgt g : in64 s -> gdt_at s g -> rax s = tgt -> tgt < 2 ^ 64 -> canonical tgt = true ->
  rsp s = va + 16 -> va + 16 < 2 ^ 64 -> alias va o -> o + 16 <= 0x90000 -> 0x90000 <= g ->
  holds_at (mem s) (g + 8) 8 0x0020980000000000 -> alias at_ ph -> ph + k + 2 < 0xa00000 ->
  block at_ ph k [PushQ 8; PushRax; Lretq] s = Go (returned s va o tgt).
Proof.
  intros I G A Ht Ct R Hv Al Ho Hg Hd Hat Hk.
  set (s1 := with_rsp (va + 8) (with_mem (put (mem s) (o + 8) 8 8) s)).
  assert (in64 s1) as I1 by (refine (in64_mem s _ I _); intros a Ha; apply put8_table; [lia|exact Ha]).
  set (s2 := with_rsp va (with_mem (put (mem s1) o 8 tgt) s1)).
  assert (in64 s2) as I2 by (refine (in64_mem s1 _ I1 _); intros a Ha; apply put8_table; [lia|exact Ha]).
  eapply block_step; [apply fetch64; [exact I|apply alias_add, Hat|lia]| |].
  { cbn [exec]. rewrite (i_l s I). apply (push64 8 s (va + 8) (o + 8)); [exact I|lia|lia|apply alias_add, Al|lia]. }
  fold s1.
  eapply block_step.
  { replace (ph + (k + 1)) with (ph + k + 1) by lia. replace (at_ + (k + 1)) with (at_ + k + 1) by lia.
    apply fetch64; [exact I1|apply alias_add, alias_add, Hat|lia]. }
  { cbn [exec]. rewrite (i_l s1 I1). change (rax s1) with (rax s). rewrite A.
    apply (push64 tgt s1 va o); [exact I1|reflexivity|lia|exact Al|lia]. }
  fold s2.
  assert (holds_at (mem s2) o 8 tgt) as P1 by apply (put_in 8).
  assert (holds_at (mem s2) (o + 8) 8 8) as P2.
  { apply put_out_holds; [apply (put_in 8)|]. right. change (N.of_nat 8) with 8. lia. }
  eapply block_step; [|  |reflexivity].
  { replace (ph + (k + 1 + 1)) with (ph + k + 2) by lia. replace (at_ + (k + 1 + 1)) with (at_ + k + 2) by lia.
    apply fetch64; [exact I2|apply alias_add, alias_add, Hat|lia]. }
  cbn [exec]. rewrite (i_l s2 I2).
  rewrite (pop64 s2 o tgt I2 Al) by (try exact P1; try exact Ht; lia). cbn [rbind fst snd].
  change (rsp s2) with va. rewrite (N.mod_small (va + 8)) by lia.
  rewrite (pop64 (with_rsp (va + 8) s2) (o + 8) 8); [|exact I2|apply alias_add, Al|lia|exact P2|reflexivity].
  cbn [rbind fst snd]. change (rsp (with_rsp (va + 8) s2)) with (va + 8).
  replace (va + 8 + 8) with (va + 16) by lia. rewrite (N.mod_small (va + 16)) by lia. change (8 mod 2 ^ 16) with 8.
  set (s3 := with_rsp (va + 16) (with_rsp (va + 8) s2)).
  assert (in64 s3) as I3 by exact I2.
  match goal with |- load_cs _ _ ?x = _ => change x with s3 end.
  unfold load_cs. rewrite (i_pe s3 I3). change (8 <? 4) with false. cbn [negb].
  rewrite (desc64 s3 g 8 0x0020980000000000); [|exact I3|exact G|left; reflexivity| |reflexivity].
  - cbn [rbind]. rewrite in64_cpl by exact I3.
    assert (lma s3 = true) as -> by apply I3.
    change (canonical tgt = true) in Ct. rewrite Ct. reflexivity.
  - change (mem s3) with (put (put (mem s) (o + 8) 8 8) o 8 tgt).
    apply put_out_holds; [apply put_out_holds; [exact Hd|]|]; right; change (N.of_nat 8) with 8; lia.
Qed.

Lemma kernel_frame L m m' : layout_ok L -> kernel_in L m -> (forall a, 0x100000 <= a -> m' a = m a) -> kernel_in L m'.
Proof.
  intros _ K F. split.
  1-3: intros i Hi; (eapply holds_ext; [apply K, Hi|]); intros j Hj; apply F; lia.
  all: (eapply holds_ext; [apply K|]); intros j Hj; apply F; unfold image; lia.
Qed.

(** head.S:5-28 *)
Record after_start (L : layout) (s s' : cpu) : Prop := {
  e_mem : mem s' = put (put (mem s) 0x7DF8 8 8) 0x7DF0 8 (high + image + k_entry64 L);
  e_cr0 : cr0 s' = cr0 s; e_cr3 : cr3 s' = 0x101000; e_cr4 : cr4 s' = cr4 s; e_efer : efer s' = efer s;
  e_cs : cs s' = code64; e_sr : forall r, sr s' r = data64; e_rip : rip s' = high + image + k_entry64 L;
  e_gdtr : gdtr s' = (high + image + k_gdt L, 135); e_idtr : idtr s' = (high + image + k_idt L, 4095); e_intr : intr s' = intr s
}.
Lemma k_lt L : layout_ok L -> k_main L < 0x900000 /\ k_entry64 L < 0x900000 /\ k_gdt L < 0x900000 /\ k_idt L < 0x900000.
Proof. intros []. lia. Qed.
Lemma canonical_high o : o < 0xa00000 -> canonical (high + o) = true.
Proof. intros H. unfold canonical, high. replace (2 ^ 64 - 2 ^ 47 <=? 0xffff800000000000 + o) with true by lia. apply orb_true_r. Qed.
Lemma start_ok L s g : layout_ok L -> kernel_in L (mem s) -> in64 s -> rip s = image -> gdt_at s g ->
  holds_at (mem s) (g + 16) 8 0x0000920000000000 ->
  exists s', enter image (start_ L) s = Go s' /\ after_start L s s'.
Proof.
  intros LO K I R G H. pose proof (k_lt L LO) as (Hm & He & Hgd & Hid). pose proof (lo_kg L LO) as Hkg.
  assert (here s = image) as Hh by (unfold here; rewrite (i_l s I); exact R).
  set (d := data64).
  set (s1 := with_rax (low16 (rax s) 0x10) s).
  set (s2 := with_rsp 0x7E00 (with_sr SS d (with_sr FS d (with_sr ES d (with_sr DS d s1))))).
  set (s3 := with_gdtr (high + image + k_gdt L, 135) s2).
  set (s4 := with_idtr (high + image + k_idt L, 4095) s3).
  set (s5 := with_rax (low16 (rax s4) 0x10) s4).
  set (s6 := with_sr SS d (with_sr GS d (with_sr FS d (with_sr ES d (with_sr DS d s5))))).
  set (s7 := with_cr3 0x101000 (with_rax 0x101000 (with_rsp 0x7E00 s6))).
  set (t := high + (image + k_entry64 L)).
  set (s8 := with_rax t s7).
  assert (alias image image) as Ai by (left; reflexivity).
  assert (forall k, k < 100 -> forall s', in64 s' -> translate s' (image + k) false = Go (image + k)) as F.
  { intros k Hk s' I'. apply fetch64; [exact I'|apply alias_add, Ai|unfold image; lia]. }
  assert (in64 s1) as I1 by exact I. assert (in64 s2) as I2 by exact I. assert (in64 s3) as I3 by exact I.
  assert (in64 s4) as I4 by exact I. assert (in64 s5) as I5 by exact I.
  assert (in64 s7) as I7.
  { split; [|apply I]. destruct (i_tab s I) as (P & Lm & _). split; [exact P|]. split; [exact Lm|]. right.
    split; [reflexivity|]. split; apply K. }
  assert (in64 s8) as I8 by exact I7.
  assert (gdt_at s4 (image + k_gdt L)) as G4.
  { split; [right; change (high + image + k_gdt L = high + (image + k_gdt L)); lia|]. split; [unfold image; lia|].
    change (23 <= 135). lia. }
  assert (forall at_ r s', in64 s' -> gdtr s' = gdtr s -> mem s' = mem s -> rax s' = rax s1 ->
    exec at_ (MovSr r) s' = Go (with_sr r d s')) as M1.
  { intros at_ r s' I' G' M' A'. apply (mov_sr64 at_ r s' g); [exact I'|unfold gdt_at; rewrite G'; exact G|rewrite A'; apply low16_sel|].
    rewrite M'. exact H. }
  assert (forall at_ r s', in64 s' -> gdtr s' = gdtr s4 -> mem s' = mem s -> rax s' = rax s5 ->
    exec at_ (MovSr r) s' = Go (with_sr r d s')) as M2.
  { intros at_ r s' I' G' M' A'.
    apply (mov_sr64 at_ r s' (image + k_gdt L)); [exact I'|unfold gdt_at; rewrite G'; exact G4|rewrite A'; apply low16_sel|].
    rewrite M'. apply K. }
  exists (returned s8 0x7DF0 0x7DF0 t). split.
  - apply enter_block; [rewrite Hh; apply fetch64; [exact I|exact Ai|reflexivity]|]. rewrite Hh. unfold start_.
    eapply block_step; [apply F; [reflexivity|exact I]|reflexivity|]. fold s1.
    do 4 (eapply block_step; [apply F; [reflexivity|exact I]|apply M1; [exact I|reflexivity|reflexivity|reflexivity]|]).
    eapply block_step; [apply F; [reflexivity|exact I]|reflexivity|].
    change (with_rsp _ _) with s2.
    eapply block_step; [apply F; [reflexivity|exact I]| |].
    { cbn [exec]. rewrite (i_l s2 I2).
      rewrite (table64 s2 (image + k_gdtptr L) (image + k_gdtptr L) 135 (high + image + k_gdt L)); [reflexivity|exact I2|left; reflexivity|..].
      - pose proof (lo_kp L LO). unfold image. lia.
      - apply K.
      - reflexivity.
      - apply K.
      - unfold high, image. lia. }
    change (with_gdtr _ _) with s3.
    eapply block_step; [apply F; [reflexivity|exact I]| |].
    { cbn [exec]. rewrite (i_l s3 I3).
      rewrite (table64 s3 (image + k_idtptr L) (image + k_idtptr L) 4095 (high + image + k_idt L)); [reflexivity|exact I3|left; reflexivity|..].
      - pose proof (lo_ki L LO). unfold image. lia.
      - apply K.
      - reflexivity.
      - apply K.
      - unfold high, image. lia. }
    change (with_idtr _ _) with s4.
    eapply block_step; [apply F; [reflexivity|exact I]|reflexivity|]. fold s5.
    do 5 (eapply block_step; [apply F; [reflexivity|exact I]|apply M2; [exact I|reflexivity|reflexivity|reflexivity]|]).
    change (with_sr SS _ _) with s6.
    eapply block_step; [apply F; [reflexivity|exact I]|reflexivity|].
    eapply block_step; [apply F; [reflexivity|exact I]|reflexivity|].
    eapply block_step; [apply F; [reflexivity|exact I]| |].
    { cbn [exec]. change (3 =? 0) with false. change (3 =? 3) with true. cbn iota. unfold width.
      replace (mode64 _) with true by (symmetry; apply I). reflexivity. }
    change (with_cr3 _ _) with s7.
    eapply block_step; [apply F; [reflexivity|exact I7]| |].
    { cbn [exec]. rewrite (i_l s7 I7).
      rewrite (rdl_maps s7 8 (in64_maps s7 I7) _ (image + k_switchseg L)).
      - rewrite (rd8 _ _ (high + image + k_entry64 L)); [reflexivity|apply K|unfold high, image; lia].
      - apply alias_add, Ai.
      - pose proof (lo_ss L LO). change (N.of_nat 8) with 8. unfold image. lia. }
    cbn [rbind]. replace (high + image + k_entry64 L) with t by (unfold t; lia). change (with_rax t s7) with s8.
    apply (far_return image image _ s8 0x7DF0 0x7DF0 t (image + k_gdt L)); try reflexivity.
    + exact I8.
    + exact G4.
    + unfold t, high, image. lia.
    + unfold t. apply canonical_high. unfold image. lia.
    + left. reflexivity.
    + vm_compute. discriminate.
    + unfold image. lia.
    + apply K.
    + exact Ai.
  - split; try reflexivity.
    + replace (high + image + k_entry64 L) with t by (unfold t; lia). reflexivity.
    + intros r. destruct r; reflexivity.
    + cbn [returned with_cs rip]. unfold t. lia.
Qed.
