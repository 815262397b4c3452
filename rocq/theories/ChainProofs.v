(** Proofs about the whole way from the disk to main. *)
From stdpp Require Import list.
From Coq Require Import NArith Lia ZifyBool ZifyNat ZifyN.
From Verif Require Import Base PagingModel SwitchModel SwitchSpec SwitchThms
  E820Model E820Spec E820Proofs FatModel FatSpec FatProofs StageModel StageSpec StageProofs ChainModel ChainSpec.
Local Open Scope N_scope.

(** The sector buffer keeps the last sector. *)
Lemma load_kernel_last disk c cs v : byte_disk disk -> file_chain disk c cs v -> v = 0xfff ->
  forall fuel m edi, (length cs <= fuel)%nat -> 0x8400 <= edi -> edi + 512 * N.of_nat (length cs) < 4294967296 ->
  exists m' e, load_kernel fuel disk m c edi = Ok (m', e) /\ forall a, 0x7e00 <= a < 0x8000 -> m' a = last_sector disk cs a.
Proof.
  intros B H. induction H as [c Hc He|c cs v Hc H IH]; intros Hv fuel m edi Hf Hlo Hhi.
  - destruct fuel as [|fuel]; [cbn [length] in Hf; lia|]. cbn [load_kernel].
    assert (c < 2849) by (destruct Hc; lia). rewrite read_cluster by lia. cbn [obind].
    set (m1 := store m 0x7e00 _).
    pose proof (mov_kernel_spec 512 m1 0x7e00 edi) as M. cbn [length] in Hhi.
    destruct (mov_kernel 512 m1 0x7e00 edi) as [m2 edi2]. cbn [fst snd] in M.
    destruct M as (-> & A & F); [lia|lia|lia|].
    destruct (get_fat_ok disk m2 c B) as (m3 & E3 & F3); [lia|]. rewrite E3. cbn [obind].
    rewrite Hv. rewrite N.eqb_refl. exists m3. eexists. split; [reflexivity|].
    intros a Ha. rewrite F3 by lia. rewrite F by lia. unfold last_sector. cbn [last].
    replace a with (0x7e00 + (a - 0x7e00)) at 1 by lia. apply store_load_at. lia.
  - destruct fuel as [|fuel]; [cbn [length] in Hf; lia|]. cbn [load_kernel].
    assert (Hc' : c < 2849) by (destruct Hc; lia). rewrite read_cluster by lia. cbn [obind].
    set (m1 := store m 0x7e00 _).
    pose proof (mov_kernel_spec 512 m1 0x7e00 edi) as M. cbn [length] in Hhi.
    destruct (mov_kernel 512 m1 0x7e00 edi) as [m2 edi2]. cbn [fst snd] in M.
    destruct M as (-> & A & F); [lia|lia|lia|].
    destruct (get_fat_ok disk m2 c B) as (m3 & E3 & F3); [lia|]. rewrite E3. cbn [obind].
    destruct (chain_head _ _ _ _ H) as ([Hd1 Hd2] & cs' & Ecs).
    destruct (N.eqb_spec (fat_entry disk c) 0xfff) as [E|E]; [lia|].
    destruct (IH Hv fuel m3 (edi + N.of_nat 512)) as (m' & e & E' & L'); [cbn [length] in Hf; lia|lia|lia|].
    exists m', e. split; [exact E'|]. intros a Ha. rewrite (L' a Ha). unfold last_sector. subst cs. reflexivity.
Qed.

Lemma scan_same n : forall a av m1 m2, (forall x, a <= x < a + 20 * N.of_nat n -> m1 x = m2 x) -> scan m1 a n av = scan m2 a n av.
Proof.
  induction n as [|n IH]; intros a av m1 m2 E; [reflexivity|]. cbn [scan].
  rewrite (read_entry_ext m1 m2 a) by (intros x Hx; apply E; lia).
  destruct (_ || _); [reflexivity|]. rewrite (IH (a + 20) _ m1 m2) by (intros x Hx; apply E; lia). reflexivity.
Qed.

Lemma run_stale m1 m2 n : (n <= 20)%nat -> (forall x, 0x7e00 <= x < 0x8000 -> m1 x = m2 x) ->
  stale_entries m2 n (prefix_while scan_accepts (raw_entries m1 (e820_addr + 20 * N.of_nat n) (20 - n))).
Proof.
  intros Hn E. remember (20 - n)%nat as d eqn:Hd. revert n Hn Hd. induction d as [|d IH]; intros n Hn Hd.
  - constructor. left. lia.
  - cbn [raw_entries prefix_while].
    rewrite (read_entry_ext m1 m2 (e820_addr + 20 * N.of_nat n)) by (unfold e820_addr; intros x Hx; apply E; lia).
    destruct (scan_accepts _) eqn:A.
    + apply accepts_plain in A. apply stale_more; [lia|reflexivity|exact A|].
      replace (e820_addr + 20 * N.of_nat n + 20) with (e820_addr + 20 * N.of_nat (S n)) by lia. apply IH; lia.
    + constructor. right. intros P. apply accepts_plain in P. unfold e820_addr in *. congruence.
Qed.
Lemma stale_none m n : stale_entries m n [] <-> n = 20%nat \/ ~ entry_plain (read_entry m (0x7e00 + 20 * N.of_nat n)).
Proof. split; [intros H; inversion H; assumption|apply stale_end]. Qed.

Section Chain.
Context (disk loader_name kernel_name : bytes) (csL csK : list N) (b : bios) (es : list e820_entry) (info : list N).
Context (vars : N -> Prop) (noise : nat -> bytes -> bytes) (L : layout) (fuel : nat) (m0 : bytes).
Context (B : byte_disk disk) (FL : file_on disk loader_name csL) (FK : file_on disk kernel_name csK).
Context (HL : (length csL <= 128)%nat) (Hf : (2847 <= fuel)%nat).
Context (CL : carries disk csL 0x10000 vars (loader_in L)) (CK : carries disk csK 0x100000 vars (kernel_in L)).
Context (Hv : forall a, vars a -> 0x10000 <= a < 0x20000) (Hq : quiet vars noise) (Hi : (length info <= 512)%nat).
Context (Hl : lists b 0 es) (Hn : (length es <= 20)%nat) (Ho : Forall entry_ok es) (Hp : Forall entry_plain es).

Lemma chain_memory : exists m, load_all fuel disk loader_name kernel_name b info noise m0 = Ok (Some m) /\
  loader_in L m /\ kernel_in L m /\
  exists m1, (forall a, 0x7e00 <= a < 0x8000 -> m1 a = last_sector disk csK a) /\
    forall a, 0x7e00 <= a < 0x7e00 + 400 -> m a = store_map m1 0x7e00 es a.
Proof using All.
  destruct FL as (iL & ML & FCL), FK as (iK & MK & FCK).
  pose proof (chain_length _ _ _ _ FCL) as LL. pose proof (chain_length _ _ _ _ FCK) as LK.
  unfold load_all, boot_loader. destruct (find_first disk m0 loader_name iL ML) as (n0 & E0 & _). rewrite E0. cbn [obind].
  destruct (load_loader_short disk _ csL n0 fuel B FCL HL ltac:(lia)) as (n1 & E1 & C1 & _). rewrite E1. cbn [omap obind].
  unfold boot_kernel. destruct (find_first disk (noise 0%nat n1) kernel_name iK MK) as (n2 & E2 & F2). rewrite E2. cbn [obind].
  destruct (load_kernel_exact disk _ csK n2 fuel B FCK ltac:(lia)) as (n3 & E3 & C3 & F3). rewrite E3. cbn [obind].
  unfold store_memory_map. rewrite (get_lists b 0 es Hl (noise 1%nat n3) 0x7E00 fuel ltac:(lia)) by (change (2 ^ 16) with 65536; lia). cbn [obind].
  eexists. split; [reflexivity|].
  assert (Out : forall a, ~ scratch vars a -> 0x8400 <= a -> noise 2%nat (get_svga info (store_map (noise 1%nat n3) 0x7E00 es)) a = n3 a).
  { intros a Ha Ha2. rewrite Hq by exact Ha. unfold get_svga. rewrite store_outside by lia. rewrite store_map_outside by lia. apply Hq, Ha. }
  split; [|split].
  - apply CL. intros k x Hk Hvk. pose proof Hk as Hk'. apply file_byte_cell in Hk' as (c' & Hc' & _). apply lookup_lt_Some in Hc'.
    assert (k < 65536) by (assert (k / 512 < 128) by lia; pose proof (N.div_mod k 512 ltac:(lia)); pose proof (N.mod_lt k 512 ltac:(lia)); lia).
    assert (~ scratch vars (0x10000 + k)) by (intros [?|[?|?]]; [lia|contradiction|lia]).
    rewrite Out by (assumption || lia). rewrite F3 by lia. rewrite F2 by lia. rewrite Hq by assumption. apply C1, Hk.
  - apply CK. intros k x Hk Hvk. assert (~ scratch vars (0x100000 + k)) by (intros [?|[?|?]]; [lia|contradiction|lia]).
    rewrite Out by (assumption || lia). apply C3, Hk.
  - exists (noise 1%nat n3). assert (NS : forall a, 0x7e00 <= a < 0x8000 -> ~ scratch vars a).
    { intros a Ha [?|[V|?]]; [lia| |lia]. apply Hv in V. lia. }
    split.
    + intros a Ha. rewrite Hq by (apply NS; lia).
      destruct (load_kernel_last disk _ csK _ B FCK eq_refl fuel n2 0x100000) as (m' & e & E4 & L4); [lia|lia|lia|].
      rewrite E4 in E3. injection E3 as <- _. exact (L4 a Ha).
    + intros a Ha. rewrite Hq by (apply NS; lia). unfold get_svga. apply store_outside. lia.
Qed.

(** From the disk to main, and what main will read as the memory map. *)
Lemma chain_boots cpuid ret : layout_ok L -> has_long_mode cpuid = true ->
  exists m, load_all fuel disk loader_name kernel_name b info noise m0 = Ok (Some m) /\
    forall s, mem s = m -> real_mode L s -> exists s', boot L cpuid ret s = Go (Main s') /\ ready L s s' /\
      exists stale, e820_init (mem s') = (es ++ stale, usable_total (es ++ stale) mod 2 ^ 64) /\
        stale_entries (last_sector disk csK) (length es) stale.
Proof using All.
  intros Lo Hlm. destruct chain_memory as (m & E & LI & KI & m1 & Hm1 & Hmap). exists m. split; [exact E|].
  intros s Hs Hr. rewrite <- Hs in LI, KI, Hmap.
  destruct (boot_main L cpuid ret s Lo LI KI Hr Hlm) as (s' & Eb & R). exists s'. split; [exact Eb|]. split; [exact R|].
  assert (Ei : e820_init (mem s') = e820_init (store_map m1 e820_addr es)).
  { unfold e820_init. apply scan_same. intros x Hx. unfold e820_addr in Hx. rewrite (rd_mem _ _ _ R) by lia. apply Hmap. lia. }
  rewrite Ei. rewrite (init_spec m1 es Ho Hp Hn). cbv zeta. eexists. split; [reflexivity|].
  apply run_stale; [lia|]. intros x Hx. apply Hm1. lia.
Qed.
End Chain.

Lemma stale_unique m n l : stale_entries m n l -> forall l', stale_entries m n l' -> l' = l.
Proof.
  induction 1 as [n E|n e l Hn He Hp H IH]; intros l' H'; inversion H' as [n' E'|n' e' k Hn' He' Hp' H'']; subst.
  - reflexivity.
  - destruct E as [->|E]; [lia|contradiction].
  - destruct E' as [->|E']; [lia|contradiction].
  - f_equal. apply IH. assumption.
Qed.
Lemma chain_all disk loader_name kernel_name loader kernel vars L b es info noise fuel m0 cpuid ret :
  floppy disk loader_name kernel_name loader kernel vars L -> firmware b es info -> quiet vars noise -> (2847 <= fuel)%nat ->
  has_long_mode cpuid = true ->
  exists m, load_all fuel disk loader_name kernel_name b info noise m0 = Ok (Some m) /\
    forall s, mem s = m -> real_mode L s -> exists s', boot L cpuid ret s = Go (Main s') /\ SwitchSpec.ready L s s' /\
      exists stale, e820_init (mem s') = (es ++ stale, usable_total (es ++ stale) mod 2 ^ 64) /\
        stale_entries (last_sector disk kernel) (length es) stale.
Proof. intros [] [] Hq Hf Hc. eapply chain_boots; eassumption. Qed.
Lemma chain_right disk loader_name kernel_name loader kernel vars L b es info noise fuel m0 cpuid ret :
  floppy disk loader_name kernel_name loader kernel vars L -> firmware b es info -> quiet vars noise -> (2847 <= fuel)%nat ->
  has_long_mode cpuid = true ->
  exists m, load_all fuel disk loader_name kernel_name b info noise m0 = Ok (Some m) /\
    forall s, mem s = m -> real_mode L s -> exists s', boot L cpuid ret s = Go (Main s') /\
      (fst (e820_init (mem s')) = es <->
       length es = 20%nat \/ ~ entry_plain (read_entry (last_sector disk kernel) (0x7e00 + 20 * N.of_nat (length es)))).
Proof.
  intros Hd Hw Hq Hf Hc. destruct (chain_all disk loader_name kernel_name loader kernel vars L b es info noise fuel m0 cpuid ret Hd Hw Hq Hf Hc) as (m & E & H).
  exists m. split; [exact E|]. intros s Hs Hr. destruct (H s Hs Hr) as (s' & Eb & _ & stale & Ei & St). exists s'. split; [exact Eb|].
  rewrite Ei. cbn [fst]. rewrite <- stale_none. split.
  - intros X. assert (stale = []) as -> by (apply (f_equal length) in X; rewrite app_length in X; destruct stale; [reflexivity|cbn in X; lia]). exact St.
  - intros X. rewrite (stale_unique _ _ _ X _ St). apply app_nil_r.
Qed.
