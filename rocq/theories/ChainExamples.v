(** A floppy image the whole way works for, and one whose kernel ends in bytes that look like memory ranges. *)
From stdpp Require Import list list_numbers.
From Coq Require Import NArith Lia ZifyBool ZifyNat ZifyN.
From Verif Require Import Base PagingModel SwitchModel SwitchSpec SwitchExamples
  E820Model E820Spec E820Proofs FatModel FatSpec FatProofs FatExamples StageModel StageSpec StageProofs ChainModel ChainSpec ChainProofs.
Local Open Scope N_scope.

(** loader: clusters 2-5; kernel: clusters 10-94 *)
Definition two_files (c : N) : N :=
  if (c =? 5) || (c =? 94) then 0xfff else if ((2 <=? c) && (c <? 5)) || ((10 <=? c) && (c <? 94)) then c + 1 else 0.
(* "LOADER  BIN" *)
Definition loader_file (k : N) : N := nth (N.to_nat k) [76; 79; 65; 68; 69; 82; 32; 32; 66; 73; 78] 0.
Definition two_dir (k : N) : N :=
  if k <? 32 then if k <? 11 then loader_file k else if k =? 11 then 0x20 else if k =? 26 then 2 else 0
  else if k <? 64 then if k - 32 <? 11 then demo_name (k - 32) else if k =? 43 then 0x20 else if k =? 58 then 10 else 0
  else 0.
Definition two_data (last : N -> N) (c r : N) : N :=
  if (2 <=? c) && (c <? 6) then demo_mem (0x10000 + 512 * (c - 2) + r)
  else if c =? 94 then last r
  else if (10 <=? c) && (c <? 94) then demo_mem (0x100000 + 512 * (c - 10) + r) else 0.
Definition two_disk (last : N -> N) (a : N) : N :=
  (if a <? 512 then 0
   else if a <? 5120 then fat_byte two_files (a - 512)
   else if (9728 <=? a) && (a <? 16896) then two_dir (a - 9728)
   else two_data last (a / 512 - 31) (a mod 512)) mod 256.
Definition loader_clusters : list N := N.of_nat <$> seq 2 4.
Definition kernel_clusters : list N := N.of_nat <$> seq 10 85.

Lemma two_bytes last : byte_disk (two_disk last).
Proof. intros a. unfold two_disk. apply N.mod_lt. discriminate. Qed.
Lemma two_entries last c : (2 <= c < 95)%nat -> fat_entry (two_disk last) (N.of_nat c) = two_files (N.of_nat c).
Proof.
  intros Hc. rewrite entry_fast_eq by (apply two_bytes || lia).
  assert (E : forallb (fun i => entry_fast (two_disk (fun _ => 0)) (N.of_nat i) =? two_files (N.of_nat i)) (seq 2 93) = true)
    by (vm_compute; reflexivity).
  rewrite forallb_forall in E. specialize (E c ltac:(apply in_seq; lia)). apply N.eqb_eq in E. rewrite <- E.
  assert (X : forall a, a < 5120 -> two_disk last a = two_disk (fun _ => 0) a).
  { intros a Ha. unfold two_disk. destruct (a <? 512); [reflexivity|]. replace (a <? 5120) with true by lia. reflexivity. }
  assert (3 * N.of_nat c / 2 < 1000) by (apply N.div_lt_upper_bound; lia).
  unfold entry_fast. rewrite !X by lia. reflexivity.
Qed.
Lemma two_chain last n : forall k, (0 < n)%nat -> (2 <= k)%nat -> (k + n = 6 \/ 10 <= k /\ k + n = 95)%nat ->
  file_chain (two_disk last) (N.of_nat k) (N.of_nat <$> seq k n) 0xfff.
Proof.
  induction n as [|n IH]; intros k H0 H1 H2; [lia|].
  pose proof (two_entries last k ltac:(lia)) as Ek. unfold two_files in Ek.
  destruct n as [|n].
  - replace ((N.of_nat k =? 5) || (N.of_nat k =? 94)) with true in Ek by lia.
    change (N.of_nat <$> seq k 1) with [N.of_nat k]. rewrite <- Ek. apply chain_last; [split; lia|]. rewrite Ek. split; lia.
  - replace ((N.of_nat k =? 5) || (N.of_nat k =? 94)) with false in Ek by lia.
    replace (((2 <=? N.of_nat k) && (N.of_nat k <? 5)) || ((10 <=? N.of_nat k) && (N.of_nat k <? 94))) with true in Ek by lia.
    change (seq k (S (S n))) with (k :: seq (S k) (S n)). rewrite fmap_cons. apply chain_next; [split; lia|].
    rewrite Ek. replace (N.of_nat k + 1) with (N.of_nat (S k)) by lia. apply IH; lia.
Qed.
Lemma two_same last a : 9728 <= a < 16896 -> two_disk last a = two_disk (fun _ => 0) a.
Proof. intros Ha. unfold two_disk. replace (a <? 512) with false by lia. replace (a <? 5120) with false by lia.
  replace ((9728 <=? a) && (a <? 16896)) with true by lia. reflexivity. Qed.
Lemma match_same last name i : i < 224 -> first_match (two_disk (fun _ => 0)) name i -> first_match (two_disk last) name i.
Proof.
  intros Hi (_ & M & F). split; [exact Hi|].
  assert (X : forall j k, j < 224 -> k < 11 -> two_disk last (dir_offset j + k) = two_disk (fun _ => 0) (dir_offset j + k)).
  { intros j k Hj Hk. apply two_same. unfold dir_offset. lia. }
  split.
  - intros k Hk. rewrite X by lia. apply M, Hk.
  - intros j Hj N. apply (F j Hj). intros k Hk. rewrite <- X by lia. apply N, Hk.
Qed.
Lemma two_loader last : file_on (two_disk last) loader_file loader_clusters.
Proof.
  exists 0. split; [apply match_same; [lia|]; apply first_b_spec; vm_compute; reflexivity|].
  change (dir_cluster (two_disk last) 0) with (N.of_nat 2). apply two_chain; lia.
Qed.
Lemma two_kernel last : file_on (two_disk last) demo_name kernel_clusters.
Proof.
  exists 1. split; [apply match_same; [lia|]; apply first_b_spec; vm_compute; reflexivity|].
  change (dir_cluster (two_disk last) 1) with (N.of_nat 10). apply two_chain; lia.
Qed.
Lemma demo_byte a : demo_mem a < 256.
Proof.
  assert (F : forall ws, find_byte ws a < 256).
  { induction ws as [|[ [b n] v] ws IH]; [reflexivity|]. cbn [find_byte]. destruct (_ && _); [apply N.mod_lt; discriminate|exact IH]. }
  unfold demo_mem. repeat (destruct (_ && _); [apply N.mod_lt; discriminate|]). apply F.
Qed.
Lemma two_file_byte last k0 n k : (2 <= k0)%nat -> (k0 + n <= 95)%nat -> k < 512 * N.of_nat n ->
  file_byte (two_disk last) (N.of_nat <$> seq k0 n) k = Some (two_data last (N.of_nat k0 + k / 512) (k mod 512) mod 256).
Proof.
  intros H0 Hn Hk. assert (Hd : k / 512 < N.of_nat n) by (apply N.div_lt_upper_bound; lia).
  pose proof (N.mod_lt k 512 ltac:(discriminate)) as Hm.
  unfold file_byte. rewrite list_lookup_fmap, lookup_seq_lt by lia. cbn [fmap option_fmap option_map mbind option_bind]. f_equal.
  set (c := N.of_nat (k0 + N.to_nat (k / 512))). assert (Ec : c = N.of_nat k0 + k / 512) by (unfold c; lia). rewrite <- Ec. unfold two_disk.
  replace ((c + 31) * 512 + k mod 512 <? 512) with false by lia. replace ((c + 31) * 512 + k mod 512 <? 5120) with false by lia.
  replace ((9728 <=? (c + 31) * 512 + k mod 512) && ((c + 31) * 512 + k mod 512 <? 16896)) with false by lia.
  f_equal. f_equal.
  - rewrite <- (N.div_unique _ 512 (c + 31) (k mod 512)) by lia. lia.
  - symmetry. apply (N.mod_unique _ 512 (c + 31)); lia.
Qed.
Lemma loader_same m m' : (forall a, 0x10000 <= a < 0x10100 -> m' a = m a) -> loader_in demo_layout m -> loader_in demo_layout m'.
Proof. intros E []. split; cbn [demo_layout l_gdt32ptr l_gdt32 l_gdt64ptr l_gdt64] in *; intros i Hi; rewrite E by lia; auto. Qed.
Lemma kernel_same m m' : (forall a, 0x100000 <= a < 0x10a800 -> m' a = m a) -> kernel_in demo_layout m -> kernel_in demo_layout m'.
Proof.
  intros E []. unfold image in *. split.
  1-3: intros j Hj i Hi; rewrite E by lia.
  1: apply ki_4; assumption. 1: apply ki_3; assumption. 1: apply ki_2; assumption.
  all: cbn [demo_layout k_gdtptr k_gdt k_idtptr k_idt k_switchseg k_entry64 k_startkernel k_main] in *; intros i Hi; unfold image;
    rewrite E by lia; auto.
Qed.
Definition some_vars (a : N) : Prop := 0x10500 <= a < 0x10540.
Definition some_noise (i : nat) (m : bytes) (a : N) : N :=
  if (a <? 0x7e00) || ((0x10500 <=? a) && (a <? 0x10540)) || ((0xb8000 <=? a) && (a <? 0xc0000)) then (0x55 + N.of_nat i + a) mod 256 else m a.
Lemma quiet_some : quiet some_vars some_noise.
Proof.
  intros i m a Ha. unfold some_noise.
  replace ((a <? 0x7e00) || _ || _) with false; [reflexivity|]. unfold scratch, some_vars in Ha. lia.
Qed.
Lemma loader_carried last : carries (two_disk last) loader_clusters 0x10000 some_vars (loader_in demo_layout).
Proof.
  intros m Hm. apply (loader_same demo_mem); [|exact demo_loader_in]. intros a Ha.
  replace a with (0x10000 + (a - 0x10000)) at 1 by lia. apply Hm; [|unfold some_vars; lia].
  unfold loader_clusters. rewrite two_file_byte by lia. f_equal. rewrite (N.div_small (a - 0x10000) 512), (N.mod_small (a - 0x10000) 512) by lia.
  change (two_data last (N.of_nat 2 + 0) (a - 0x10000)) with (demo_mem (0x10000 + (a - 0x10000))).
  replace (0x10000 + (a - 0x10000)) with a by lia. apply N.mod_small, demo_byte.
Qed.
Lemma kernel_carried last : carries (two_disk last) kernel_clusters 0x100000 some_vars (kernel_in demo_layout).
Proof.
  intros m Hm. apply (kernel_same demo_mem); [|exact demo_kernel_in]. intros a Ha.
  replace a with (0x100000 + (a - 0x100000)) at 1 by lia. apply Hm; [|unfold some_vars; lia].
  unfold kernel_clusters. rewrite two_file_byte by lia. f_equal. set (k := a - 0x100000).
  assert (Hd : k / 512 < 84) by (apply N.div_lt_upper_bound; lia). pose proof (N.div_mod k 512 ltac:(discriminate)).
  unfold two_data. replace ((2 <=? N.of_nat 10 + k / 512) && (N.of_nat 10 + k / 512 <? 6)) with false by lia.
  replace (N.of_nat 10 + k / 512 =? 94) with false by lia. replace ((10 <=? N.of_nat 10 + k / 512) && (N.of_nat 10 + k / 512 <? 94)) with true by lia.
  rewrite N.mod_small by apply demo_byte. f_equal. lia.
Qed.
Lemma two_last last : (forall r, last r < 256) -> forall a, 0x7e00 <= a < 0x8000 -> last_sector (two_disk last) kernel_clusters a = last (a - 0x7e00).
Proof.
  intros B a Ha. unfold last_sector. change (list.last kernel_clusters) with (Some 94). cbv iota. unfold two_disk.
  set (x := (94 + 31) * 512 + (a - 0x7e00)). replace (x <? 512) with false by lia. replace (x <? 5120) with false by lia.
  replace ((9728 <=? x) && (x <? 16896)) with false by lia.
  rewrite <- (N.div_unique x 512 125 (a - 0x7e00)) by lia. rewrite <- (N.mod_unique x 512 125 (a - 0x7e00)) by lia.
  change (two_data last (125 - 31) (a - 0x7e00)) with (last (a - 0x7e00)). apply N.mod_small, B.
Qed.
(** Bytes of memory ranges of 256 bytes at address 256, repeated. *)
Definition range_bytes (r : N) : N := nth (N.to_nat (r mod 20)) [0; 1; 0; 0; 0; 0; 0; 0; 0; 1; 0; 0; 0; 0; 0; 0; 1; 0; 0; 0] 0.
Definition some_disk := two_disk (fun r => 0x90).
Definition stale_disk := two_disk range_bytes.
Definition some_info : list N := repeat 0x41 512.
Lemma two_floppy last : floppy (two_disk last) loader_file demo_name loader_clusters kernel_clusters some_vars demo_layout.
Proof.
  split; [apply two_bytes|apply two_loader|apply two_kernel|cbn; lia|unfold some_vars; lia|apply demo_layout_ok|apply loader_carried|apply kernel_carried].
Qed.
Lemma one_firmware : firmware one_bios one_map some_info.
Proof. destruct one_map_ok as (A & _ & B & C & _). split; [exact A|cbn; lia|exact B|exact C|reflexivity]. Qed.
Lemma some_end : stale_entries (last_sector some_disk kernel_clusters) 2 [].
Proof. apply stale_end. right. intros [H _]. vm_compute in H. destruct H as [_ H]. apply H. reflexivity. Qed.
Lemma stale_run : exists l, length l = 18%nat /\ stale_entries (last_sector stale_disk kernel_clusters) 2 l.
Proof.
  eexists. split; [|apply (run_stale (last_sector stale_disk kernel_clusters)); [lia|reflexivity]]. vm_compute. reflexivity.
Qed.
(** The processor of SwitchExamples with any memory. *)
Definition with_mem (m : bytes) : cpu :=
  Cpu m 0x10 0x12345000 0 0 0x004f 0xbeef 0x3f2 0x7bf0 0x400 (real_seg 0x1000)
    (fun r => match r with DS => real_seg 0x1000 | _ => real_seg 0 end) (0xf0000, 0x30) (0, 0x3ff) true.
Lemma with_real m : real_mode demo_layout (with_mem m).
Proof. split; try reflexivity; try discriminate; repeat split. Qed.
Lemma some_chain : floppy some_disk loader_file demo_name loader_clusters kernel_clusters some_vars demo_layout /\
  firmware one_bios one_map some_info /\ quiet some_vars some_noise /\ has_long_mode demo_cpuid = true /\
  stale_entries (last_sector some_disk kernel_clusters) (length one_map) [] /\
  exists m s s', load_all 2847 some_disk loader_file demo_name one_bios some_info some_noise no_mem = Ok (Some m) /\ mem s = m /\
    real_mode demo_layout s /\ boot demo_layout demo_cpuid 0x10428 s = Go (Main s') /\ e820_init (mem s') = (one_map, 0x1ff9fc00).
Proof.
  split; [apply two_floppy|]. split; [exact one_firmware|]. split; [exact quiet_some|]. split; [reflexivity|]. split; [exact some_end|].
  destruct (chain_all _ _ _ _ _ _ _ _ _ _ _ 2847 no_mem demo_cpuid 0x10428 (two_floppy (fun _ => 0x90)) one_firmware quiet_some (le_n _) eq_refl) as (m & E & H).
  destruct (H (with_mem m) eq_refl (with_real m)) as (s' & Eb & _ & stale & Ei & St).
  exists m, (with_mem m), s'. split; [exact E|]. split; [reflexivity|]. split; [apply with_real|]. split; [exact Eb|].
  rewrite Ei. rewrite (stale_unique _ _ _ some_end _ St). reflexivity.
Qed.
Lemma stale_refuted : exists disk loader_name kernel_name loader kernel vars L b es info noise fuel m0 cpuid ret m s s',
  floppy disk loader_name kernel_name loader kernel vars L /\ firmware b es info /\ quiet vars noise /\ has_long_mode cpuid = true /\
  load_all fuel disk loader_name kernel_name b info noise m0 = Ok (Some m) /\ mem s = m /\ real_mode L s /\
  boot L cpuid ret s = Go (Main s') /\ length es = 2%nat /\ length (fst (e820_init (mem s'))) = 20%nat.
Proof.
  destruct (chain_all _ _ _ _ _ _ _ _ _ _ _ 2847 no_mem demo_cpuid 0x10428 (two_floppy range_bytes) one_firmware quiet_some (le_n _) eq_refl) as (m & E & H).
  destruct (H (with_mem m) eq_refl (with_real m)) as (s' & Eb & _ & stale & Ei & St). destruct stale_run as (l & Hl & Sl).
  do 15 eexists. exists m, (with_mem m), s'. split; [apply (two_floppy range_bytes)|]. split; [exact one_firmware|]. split; [exact quiet_some|].
  split; [exact (eq_refl : has_long_mode demo_cpuid = true)|]. split; [exact E|]. split; [reflexivity|]. split; [apply with_real|].
  split; [exact Eb|]. split; [reflexivity|].
  rewrite Ei. cbn [fst]. rewrite app_length, (stale_unique _ _ _ Sl _ St), Hl. reflexivity.
Qed.
