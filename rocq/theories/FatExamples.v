(** A small disk image meeting the hypotheses, and the cases where the boot code fails. *)
From stdpp Require Import list.
From Coq Require Import NArith Lia ZifyBool ZifyNat ZifyN.
From Verif Require Import Base E820Model FatModel FatSpec FatProofs.
Local Open Scope N_scope.
Ltac Zify.zify_post_hook ::= Z.div_mod_to_equations.

(** 2 -> 340 -> 341 -> 7 -> [mark]; the entry of 341 occupies the last byte of FAT sector 0 and the first
    byte of FAT sector 1. *)
Definition demo_entry (mark c : N) : N :=
  if c =? 2 then 340 else if c =? 340 then 341 else if c =? 341 then 7 else if c =? 7 then mark else 0.
Definition fat_byte (ent : N -> N) (k : N) : N :=
  let e0 := ent (2 * (k / 3)) in
  let e1 := ent (2 * (k / 3) + 1) in
  (if k mod 3 =? 0 then e0 else if k mod 3 =? 1 then e0 / 256 + 16 * e1 else e1 / 16) mod 256.
(* "EOSPP   BIN" *)
Definition demo_name (k : N) : N :=
  nth (N.to_nat k) [69; 79; 83; 80; 80; 32; 32; 32; 66; 73; 78] 0.
(** The entry number [pos] of the root directory is the file with attribute [attr], first cluster 2. *)
Definition dir_byte (pos attr k : N) : N :=
  if k / 32 =? pos then
    let o := k mod 32 in
    if o <? 11 then demo_name o else if o =? 11 then attr else if o =? 26 then 2 else 0
  else 0.
Definition demo_disk (ent : N -> N) (pos attr : N) (a : N) : N :=
  (if a <? 512 then 0
   else if a <? 5120 then fat_byte ent (a - 512)
   else if (9728 <=? a) && (a <? 16896) then dir_byte pos attr (a - 9728)
   else (a / 512) mod 251) mod 256.
Definition disk1 := demo_disk (demo_entry 0xfff) 17 0x20.
Definition no_mem (a : N) : N := 0.

Lemma demo_bytes ent pos attr : byte_disk (demo_disk ent pos attr).
Proof. intros a. unfold demo_disk. apply N.mod_lt. discriminate. Qed.

Definition entry_fast (disk : bytes) (c : N) : N :=
  let w := disk (512 + 3 * c / 2) + 256 * disk (512 + 3 * c / 2 + 1) in
  (if c mod 2 =? 0 then w else w / 16) mod 4096.
Lemma entry_fast_eq disk c : byte_disk disk -> c < 3072 -> fat_entry disk c = entry_fast disk c.
Proof. intros B H. exact (entry_bytes_eq disk c B H). Qed.
Lemma disk1_entries : fat_entry disk1 2 = 340 /\ fat_entry disk1 340 = 341 /\ fat_entry disk1 341 = 7 /\
  fat_entry disk1 7 = 0xfff.
Proof. rewrite !entry_fast_eq by (apply demo_bytes || reflexivity). vm_compute. repeat split. Qed.
Lemma disk1_chain : file_chain disk1 2 [2; 340; 341; 7] 0xfff.
Proof.
  destruct disk1_entries as (E2 & E340 & E341 & E7).
  apply chain_next; [split; lia|]. rewrite E2.
  apply chain_next; [split; lia|]. rewrite E340.
  apply chain_next; [split; lia|]. rewrite E341.
  rewrite <-E7. apply chain_last; [split; lia|]. rewrite E7. split; lia.
Qed.

Definition matches_b (disk name : bytes) (i : N) : bool :=
  forallb (fun k => disk (dir_offset i + N.of_nat k) =? name (N.of_nat k)) (seq 0 11).
Lemma matches_b_spec disk name i : matches_b disk name i = true <-> name_matches disk name i.
Proof.
  unfold matches_b, name_matches. rewrite forallb_forall. split.
  - intros H k Hk. specialize (H (N.to_nat k)). rewrite N2Nat.id in H. apply N.eqb_eq, H, in_seq. lia.
  - intros H k Hk. apply in_seq in Hk. apply N.eqb_eq, H. lia.
Qed.
Definition first_b (disk name : bytes) (i : N) : bool :=
  (i <? 224) && matches_b disk name i && forallb (fun j => negb (matches_b disk name (N.of_nat j))) (seq 0 (N.to_nat i)).
Lemma first_b_spec disk name i : first_b disk name i = true -> first_match disk name i.
Proof.
  unfold first_b. rewrite !andb_true_iff. intros [ [H1 H2] H3]. split; [lia|]. split; [apply matches_b_spec; exact H2|].
  intros j Hj M. apply matches_b_spec in M. rewrite forallb_forall in H3. specialize (H3 (N.to_nat j)).
  rewrite N2Nat.id, M in H3. assert (false = true) by (apply H3, in_seq; lia). discriminate.
Qed.
Lemma disk1_first : first_match disk1 demo_name 17 /\ dir_cluster disk1 17 = 2.
Proof. split; [apply first_b_spec; vm_compute; reflexivity|vm_compute; reflexivity]. Qed.
Lemma disk1_none : no_match disk1 (fun _ => 1).
Proof.
  intros i Hi M. apply matches_b_spec in M.
  assert (A : forallb (fun j => negb (matches_b disk1 (fun _ => 1) (N.of_nat j))) (seq 0 224) = true) by (vm_compute; reflexivity).
  rewrite forallb_forall in A. specialize (A (N.to_nat i)). rewrite N2Nat.id, M in A.
  assert (false = true) by (apply A, in_seq; lia). discriminate.
Qed.

Lemma entry_demo :
  byte_disk disk1 /\ 341 < 3072 /\ 3 * 341 / 2 mod 512 = 511 /\ fat_entry disk1 341 = 7 /\
  match get_fat_entry disk1 no_mem 341 with Ok (v, _) => v = 7 | _ => False end.
Proof. split; [apply demo_bytes|]. split; [lia|]. split; [reflexivity|].
  split; [exact (proj1 (proj2 (proj2 disk1_entries)))|vm_compute; reflexivity].
Qed.

Lemma chain_demo :
  byte_disk disk1 /\ first_match disk1 demo_name 17 /\ file_chain disk1 (dir_cluster disk1 17) [2; 340; 341; 7] 0xfff /\
  file_byte disk1 [2; 340; 341; 7] 1500 = Some 121.
Proof.
  split; [apply demo_bytes|]. split; [apply disk1_first|]. split.
  - rewrite (proj2 disk1_first). exact disk1_chain.
  - vm_compute. reflexivity.
Qed.

(** The end mark 0xFF8 is as valid as 0xFFF. *)
Definition disk8 := demo_disk (demo_entry 0xff8) 17 0x20.
Lemma disk8_entries : fat_entry disk8 2 = 340 /\ fat_entry disk8 340 = 341 /\ fat_entry disk8 341 = 7 /\
  fat_entry disk8 7 = 0xff8.
Proof. rewrite !entry_fast_eq by (apply demo_bytes || reflexivity). vm_compute. repeat split. Qed.
Lemma disk8_chain : file_chain disk8 2 [2; 340; 341; 7] 0xff8.
Proof.
  destruct disk8_entries as (E2 & E340 & E341 & E7).
  apply chain_next; [split; lia|]. rewrite E2.
  apply chain_next; [split; lia|]. rewrite E340.
  apply chain_next; [split; lia|]. rewrite E341.
  rewrite <-E7. apply chain_last; [split; lia|]. rewrite E7. split; lia.
Qed.
Lemma marks_refuted : exists disk c cs v, byte_disk disk /\ file_chain disk c cs v /\
  (forall fuel m, load_kernel fuel disk m c 0x100000 = Fuel) /\ (forall fuel m, load_loader fuel disk m c 0 = Fuel).
Proof.
  exists disk8, 2, [2; 340; 341; 7], 0xff8. split; [apply demo_bytes|]. split; [exact disk8_chain|]. split.
  - intros fuel m. eapply load_kernel_hang; [apply demo_bytes|exact disk8_chain|discriminate].
  - intros fuel m. eapply load_loader_hang; [apply demo_bytes|exact disk8_chain|discriminate].
Qed.

(** A file of 129 sectors: clusters 2..130. *)
Definition long_entry (c : N) : N := if c =? 130 then 0xfff else if (2 <=? c) && (c <? 130) then c + 1 else 0.
Definition disk129 := demo_disk long_entry 17 0x20.
Lemma disk129_chain : file_chain disk129 2 (N.of_nat <$> seq 2 129) 0xfff.
Proof.
  assert (E : forallb (fun i => entry_fast disk129 (N.of_nat i) =? long_entry (N.of_nat i)) (seq 2 129) = true)
    by (vm_compute; reflexivity).
  rewrite forallb_forall in E.
  assert (G : forall n k, (k + n = 131)%nat -> (2 <= k)%nat -> (0 < n)%nat ->
    file_chain disk129 (N.of_nat k) (N.of_nat <$> seq k n) 0xfff).
  { induction n as [|n IH]; intros k H1 H2 H3; [lia|].
    assert (Ek : fat_entry disk129 (N.of_nat k) = long_entry (N.of_nat k)) 
      by (rewrite entry_fast_eq by (apply demo_bytes || lia); apply N.eqb_eq, E, in_seq; lia).
    unfold long_entry in Ek. destruct n as [|n].
    - assert (k = 130%nat) as -> by lia. change (N.of_nat 130 =? 130) with true in Ek. cbv iota in Ek.
      change (N.of_nat <$> seq 130 1) with [N.of_nat 130]. rewrite <-Ek. apply chain_last; [split; lia|]. rewrite Ek. split; lia.
    - destruct (N.eqb_spec (N.of_nat k) 130); [lia|].
      replace ((2 <=? N.of_nat k) && (N.of_nat k <? 130)) with true in Ek by lia.
      change (seq k (S (S n))) with (k :: seq (S k) (S n)). rewrite fmap_cons. apply chain_next; [split; lia|].
      rewrite Ek. replace (N.of_nat k + 1) with (N.of_nat (S k)) by lia. apply IH; lia. }
  exact (G 129%nat 2%nat eq_refl (le_n 2) ltac:(lia)).
Qed.
Lemma wrap_refuted : exists disk c cs m m' i b, byte_disk disk /\ file_chain disk c cs 0xfff /\
  load_loader (length cs) disk m c 0 = Ok m' /\ file_byte disk cs i = Some b /\ m' (0x10000 + i) <> b.
Proof.
  destruct (load_loader_exact disk129 2 _ no_mem 129 (demo_bytes _ _ _) disk129_chain) as (m' & E & L & _).
  { rewrite fmap_length, seq_length. lia. }
  exists disk129, 2, (N.of_nat <$> seq 2 129), no_mem, m', 0, 33.
  split; [apply demo_bytes|]. split; [exact disk129_chain|]. split; [rewrite fmap_length, seq_length; exact E|].
  split; [vm_compute; reflexivity|].
  specialize (L 65536 161). change (0x10000 + 65536 mod 65536) with (0x10000 + 0) in L. rewrite L; [discriminate| |].
  - vm_compute. reflexivity.
  - rewrite fmap_length, seq_length. change (65536 / 512) with 128. lia.
Qed.

(** A volume label of that name behind the end of the directory is loaded as if it were the file. *)
Definition disk_label := demo_disk (demo_entry 0xfff) 17 0x08.
Lemma label_refuted : exists disk name, byte_disk disk /\
  (forall i, i < 224 -> ~ (name_matches disk name i /\ dir_file disk i)) /\
  forall m, exists c m', find_file disk m name = Ok (Some c, m').
Proof.
  exists disk_label, demo_name. split; [apply demo_bytes|]. split.
  - intros i Hi [_ [H _] ]. apply (H 0); [lia|]. vm_compute. reflexivity.
  - intros m. destruct (find_first disk_label m demo_name 17) as (m' & E & _); [|eauto].
    apply first_b_spec. vm_compute. reflexivity.
Qed.
