(** Proofs about the boot code. *)
From stdpp Require Import list.
From Coq Require Import NArith Lia ZifyBool ZifyNat ZifyN.
From Verif Require Import Base E820Model E820Proofs FatModel FatSpec.
Local Open Scope N_scope.
Ltac Zify.zify_post_hook ::= Z.div_mod_to_equations.

(** * Sector addresses *)
Lemma land1 x : N.land x 1 = x mod 2.
Proof. exact (N.land_ones x 1). Qed.
Lemma shiftr1 x : N.shiftr x 1 = x / 2.
Proof. rewrite N.shiftr_div_pow2. reflexivity. Qed.

Lemma chs_ok L n : L < 4608 -> exists r, chs L n = Ok r /\
  rq_lba r = L /\ rq_cyl r = L / 36 /\ rq_head r = L / 18 mod 2 /\ rq_sec r = L mod 18 + 1 /\ rq_count r = n.
Proof.
  intros H. unfold chs, BPB_SecPerTrk. destruct (N.leb_spec 256 (L / 18)) as [H1|H1]; [lia|].
  eexists. split; [reflexivity|]. unfold rq_lba. cbn [rq_cyl rq_head rq_sec rq_count].
  rewrite land1, shiftr1. rewrite (N.mod_small (L mod 18 + 1) 256) by lia.
  rewrite N.div_div by lia. change (18 * 2) with 36.
  repeat split; try lia.
Qed.

Lemma chs_right L n : L < 2880 -> exists r, chs L n = Ok r /\
  rq_cyl r < 80 /\ rq_head r < 2 /\ 1 <= rq_sec r <= 18 /\ rq_count r = n /\
  (rq_cyl r * 2 + rq_head r) * 18 + (rq_sec r - 1) = L.
Proof.
  intros H. destruct (chs_ok L n) as (r & E & Hl & Hc & Hh & Hs & Hn); [lia|].
  exists r. split; [exact E|]. unfold rq_lba in Hl. repeat split; lia.
Qed.

Lemma chs_div L n : 4608 <= L -> chs L n = UB.
Proof. intros H. unfold chs, BPB_SecPerTrk. destruct (N.leb_spec 256 (L / 18)); [reflexivity|lia]. Qed.

Lemma valid_eq r : rq_valid r = true <->
  rq_cyl r < 80 /\ rq_head r < 2 /\ 1 <= rq_sec r /\ 1 <= rq_count r /\ rq_sec r + rq_count r <= 19.
Proof. unfold rq_valid. lia. Qed.

Lemma read_ok disk m L n dst : L < 2880 -> 1 <= n -> L mod 18 + n <= 18 ->
  read_one_sector disk m L n dst = Ok (store m dst (load disk (L * 512) (512 * N.to_nat n))).
Proof.
  intros H Hn Ht. unfold read_one_sector, bios_read.
  destruct (chs_ok L n) as (r & E & Hl & Hc & Hh & Hs & Hk); [lia|].
  rewrite E. cbn [obind]. replace (rq_valid r) with true.
  - rewrite Hl, Hk. reflexivity.
  - symmetry. apply valid_eq. repeat split; lia.
Qed.
Lemma read_hang disk m L n dst : 2880 <= L < 4608 -> read_one_sector disk m L n dst = Fuel.
Proof.
  intros H. unfold read_one_sector, bios_read.
  destruct (chs_ok L n) as (r & E & Hl & Hc & Hh & Hs & Hk); [lia|].
  rewrite E. cbn [obind]. replace (rq_valid r) with false; [reflexivity|].
  symmetry. apply not_true_is_false. intros V. apply valid_eq in V. lia.
Qed.
Lemma read_div disk m L n dst : 4608 <= L -> read_one_sector disk m L n dst = UB.
Proof. intros H. unfold read_one_sector. rewrite chs_div by lia. reflexivity. Qed.

(** * Bytes *)
Lemma store_load_at n : forall m a d b i, i < N.of_nat n -> store m a (load d b n) (a + i) = d (b + i).
Proof.
  induction n as [|n IH]; intros m a d b i H; [lia|]. cbn [load store].
  destruct (N.eq_dec i 0) as [->|Hi].
  - rewrite store_outside by (left; lia). rewrite !N.add_0_r, N.eqb_refl. reflexivity.
  - replace (a + i) with (a + 1 + (i - 1)) by lia. rewrite IH by lia. f_equal. lia.
Qed.
Lemma store_load_out n m a d b x : x < a \/ a + N.of_nat n <= x -> store m a (load d b n) x = m x.
Proof. intros H. apply store_outside. rewrite load_length. exact H. Qed.

Lemma number_shift f n : byte_disk f -> forall a k, (k < n)%nat ->
  number f a n / 256 ^ N.of_nat k = number f (a + N.of_nat k) (n - k).
Proof.
  intros B. induction n as [|n IH]; intros a k H; [lia|].
  destruct k as [|k].
  - change (256 ^ N.of_nat 0) with 1. rewrite N.div_1_r, N.add_0_r. rewrite Nat.sub_0_r. reflexivity.
  - rewrite Nat2N.inj_succ, N.pow_succ_r', <-N.div_div by lia. cbn [number].
    assert (f a < 256) by apply B.
    replace ((f a + 256 * number f (a + 1) n) / 256) with (number f (a + 1) n) by lia.
    rewrite IH by lia. f_equal. lia.
Qed.
Lemma number_word f a n : byte_disk f -> (2 <= n)%nat ->
  number f a n mod 65536 = f a + 256 * f (a + 1).
Proof.
  intros B H. destruct n as [|[|n]]; [lia|lia|]. cbn [number].
  assert (f a < 256) by apply B. assert (f (a + 1) < 256) by apply B. lia.
Qed.

Lemma land_fff x : N.land x 0xfff = x mod 4096.
Proof. exact (N.land_ones x 12). Qed.

Lemma entry_bytes_eq disk c : byte_disk disk -> c < 3072 ->
  let w := disk (512 + 3 * c / 2) + 256 * disk (512 + 3 * c / 2 + 1) in
  fat_entry disk c = (if c mod 2 =? 0 then w else w / 16) mod 4096.
Proof.
  intros B H w. unfold fat_entry, fat_number. set (X := number disk 512 (9 * 512)).
  assert (HX : X / 256 ^ (3 * c / 2) mod 65536 = w).
  { unfold X, w. replace (256 ^ (3 * c / 2)) with (256 ^ N.of_nat (N.to_nat (3 * c / 2))) by (rewrite N2Nat.id; reflexivity).
    rewrite number_shift by (exact B || lia). rewrite N2Nat.id. apply number_word; [exact B|]. lia. }
  clearbody X w. destruct (N.eqb_spec (c mod 2) 0) as [E|E].
  - replace (12 * c) with (8 * (3 * c / 2)) by lia. rewrite N.pow_mul_r. change (2 ^ 8) with 256.
    set (Y := X / _) in *. clearbody Y. lia.
  - replace (12 * c) with (8 * (3 * c / 2) + 4) by lia. rewrite N.pow_add_r, N.pow_mul_r.
    change (2 ^ 8) with 256. change (2 ^ 4) with 16.
    rewrite <-N.div_div by (try lia; apply N.pow_nonzero; lia).
    set (Y := X / _) in *. clearbody Y. lia.
Qed.

Lemma get_fat_ok disk m c : byte_disk disk -> c < 3072 ->
  exists m', get_fat_entry disk m c = Ok (fat_entry disk c, m') /\
    forall a, a < 0x8000 \/ 0x8400 <= a -> m' a = m a.
Proof.
  intros B H. unfold get_fat_entry. destruct (N.leb_spec 65536 (c * 3 / 2)) as [H1|H1]; [lia|].
  unfold add16, SectorNumOfFAT1Start, BPB_BytesPerSec.
  rewrite (N.mod_small (c * 3 / 2 / 512 + 1) 65536) by lia.
  rewrite read_ok by lia. cbn [obind]. change (512 * N.to_nat 2)%nat with 1024%nat.
  set (s := c * 3 / 2 / 512 + 1).
  eexists. split.
  - do 2 f_equal. unfold word_at.
    rewrite (N.mod_small (0x8000 + _)) by lia.
    rewrite <-(N.add_assoc 0x8000 _ 1). rewrite !store_load_at by lia.
    rewrite land_fff, N.shiftr_div_pow2. change (2 ^ 4) with 16.
    rewrite entry_bytes_eq by (exact B || lia). cbv zeta.
    replace (s * 512 + c * 3 / 2 mod 512) with (512 + 3 * c / 2) by (unfold s; lia).
    replace (s * 512 + (c * 3 / 2 mod 512 + 1)) with (512 + 3 * c / 2 + 1) by (unfold s; lia).
    replace (negb (c * 3 mod 2 =? 0)) with (negb (c mod 2 =? 0)).
    2: { f_equal. apply eq_true_iff_eq. rewrite !N.eqb_eq. lia. }
    destruct (c mod 2 =? 0); reflexivity.
  - intros a Ha. apply store_load_out. lia.
Qed.

(** * Directory search *)
Lemma cmp_name m name cx : forall si di, si + N.of_nat cx < 65536 -> di + N.of_nat cx < 65536 ->
  let r := cmp_file_name m name cx si di in
  (fst r = true /\ snd r = di + N.of_nat cx /\ forall k, k < N.of_nat cx -> m (di + k) = name (si + k)) \/
  (fst r = false /\ di <= snd r < di + N.of_nat cx /\
   exists k, k < N.of_nat cx /\ m (di + k) <> name (si + k)).
Proof.
  induction cx as [|cx IH]; intros si di H1 H2; cbn [cmp_file_name].
  - left. cbn [fst snd]. repeat split; lia.
  - destruct (N.eqb_spec (name si) (m di)) as [E|E].
    + unfold add16. rewrite !N.mod_small by lia.
      destruct (IH (si + 1) (di + 1)) as [(F & D & A)|(F & D & k & Hk & A)]; [lia|lia| |].
      * left. split; [exact F|]. split; [rewrite D; lia|]. intros k Hk.
        destruct (N.eq_dec k 0) as [->|]; [rewrite !N.add_0_r; congruence|].
        replace (di + k) with (di + 1 + (k - 1)) by lia. replace (si + k) with (si + 1 + (k - 1)) by lia.
        apply A. lia.
      * right. split; [exact F|]. split; [lia|]. exists (k + 1). split; [lia|].
        replace (di + (k + 1)) with (di + 1 + k) by lia. replace (si + (k + 1)) with (si + 1 + k) by lia. exact A.
    + right. cbn [fst snd]. split; [reflexivity|]. split; [lia|]. exists 0. rewrite !N.add_0_r. split; [lia|congruence].
Qed.

Lemma align_all : forallb (fun i => N.land (0x8000 + N.of_nat i) 0xffe0 =? 0x8000 + 32 * (N.of_nat i / 32)) (seq 0 512) = true.
Proof. vm_compute. reflexivity. Qed.
Lemma align i : i < 512 -> N.land (0x8000 + i) 0xffe0 = 0x8000 + 32 * (i / 32).
Proof.
  intros H. pose proof align_all as A. rewrite forallb_forall in A.
  specialize (A (N.to_nat i)). rewrite N2Nat.id in A. apply N.eqb_eq, A, in_seq. lia.
Qed.

Definition item_matches (m name : bytes) (j : N) := forall k, k < 11 -> m (0x8000 + 32 * j + k) = name k.

Lemma search_items_spec m name dx : forall j, j + N.of_nat dx = 16 ->
  (exists i, j <= i < 16 /\ search_items m name dx (0x8000 + 32 * j) = Some (0x8000 + 32 * i + 11) /\
     item_matches m name i /\ forall i', j <= i' < i -> ~ item_matches m name i') \/
  (search_items m name dx (0x8000 + 32 * j) = None /\ forall i', j <= i' < 16 -> ~ item_matches m name i').
Proof.
  induction dx as [|dx IH]; intros j Hj; cbn [search_items].
  - right. split; [reflexivity|]. lia.
  - unfold ItemFileNameLen.
    pose proof (cmp_name m name 11 0 (0x8000 + 32 * j)) as C.
    destruct (cmp_file_name m name 11 0 (0x8000 + 32 * j)) as [f d]. cbn [fst snd] in C.
    destruct C as [(-> & -> & A)|(-> & D & k & Hk & A)]; [lia|lia| |].
    + left. exists j. split; [lia|]. split; [f_equal; lia|]. split; [|lia]. intros k Hk. apply A. lia.
    + replace d with (0x8000 + (d - 0x8000)) by lia. rewrite align by lia.
      unfold add16. rewrite N.mod_small by lia.
      replace (0x8000 + 32 * ((d - 0x8000) / 32) + 32) with (0x8000 + 32 * (j + 1)) by lia.
      assert (Nj : ~ item_matches m name j) by (intros M; apply A; apply M; lia).
      destruct (IH (j + 1)) as [(i & Hi & E & M & F)|(E & F)]; [lia| |].
      * left. exists i. split; [lia|]. split; [exact E|]. split; [exact M|]. intros i' Hi'.
        destruct (N.eq_dec i' j) as [->|]; [exact Nj|]. apply F. lia.
      * right. split; [exact E|]. intros i' Hi'.
        destruct (N.eq_dec i' j) as [->|]; [exact Nj|]. apply F. lia.
Qed.

Lemma item_disk disk m name s j : j < 16 ->
  item_matches (store m 0x8000 (load disk ((19 + s) * 512) 512)) name j <-> name_matches disk name (16 * s + j).
Proof.
  intros H. unfold item_matches, name_matches, dir_offset.
  split; intros A k Hk; rewrite <-(A k Hk).
  - rewrite <-(N.add_assoc 0x8000), store_load_at by lia. f_equal. lia.
  - rewrite <-(N.add_assoc 0x8000), store_load_at by lia. f_equal. lia.
Qed.

Lemma search_root_spec disk name n : forall m s, s + N.of_nat n = 14 ->
  exists m', (forall a, a < 0x8000 \/ 0x8400 <= a -> m' a = m a) /\
  ((exists i, 16 * s <= i < 224 /\ search_root disk m name n (19 + s) = Ok (Some (0x8000 + 32 * (i mod 16) + 11), m') /\
      word_at m' (0x8000 + 32 * (i mod 16) + 26) = dir_cluster disk i /\
      name_matches disk name i /\ forall j, 16 * s <= j < i -> ~ name_matches disk name j) \/
   (search_root disk m name n (19 + s) = Ok (None, m') /\ forall j, 16 * s <= j < 224 -> ~ name_matches disk name j)).
Proof.
  induction n as [|n IH]; intros m s Hs.
  - exists m. split; [reflexivity|]. right. split; [reflexivity|]. lia.
  - cbn [search_root]. rewrite read_ok by lia. cbn [obind]. change (512 * N.to_nat 1)%nat with 512%nat.
    set (m1 := store m 0x8000 (load disk ((19 + s) * 512) 512)).
    assert (F1 : forall a, a < 0x8000 \/ 0x8400 <= a -> m1 a = m a).
    { intros a Ha. apply store_load_out. lia. }
    pose proof (search_items_spec m1 name 16 0 eq_refl) as S0. unfold ItemNumberPerSectors.
    change (0x8000 + 32 * 0) with 0x8000 in S0.
    assert (Hnot : forall i', ~ item_matches m1 name i' -> i' < 16 -> ~ name_matches disk name (16 * s + i')).
    { intros i' N1 Hi' M. apply N1. apply item_disk; assumption. }
    destruct S0 as [(i & Hi & E & M & F)|(E & F)].
    + exists m1. split; [exact F1|]. left. exists (16 * s + i). split; [lia|].
      replace ((16 * s + i) mod 16) with i by lia. rewrite E. split; [reflexivity|]. split; [|split].
      * unfold word_at, dir_cluster, dir_offset, m1.
        replace (0x8000 + 32 * i + 26 + 1) with (0x8000 + (32 * i + 27)) by lia.
        rewrite <-(N.add_assoc 0x8000 _ 26). rewrite !store_load_at by lia.
        f_equal; [|f_equal]; f_equal; lia.
      * apply item_disk in M; [exact M|lia].
      * intros j Hj. replace j with (16 * s + (j - 16 * s)) by lia. apply Hnot; [|lia]. apply F. lia.
    + rewrite E. unfold add16. rewrite N.mod_small by lia. replace (19 + s + 1) with (19 + (s + 1)) by lia.
      assert (Here : forall j, 16 * s <= j < 16 * (s + 1) -> ~ name_matches disk name j).
      { intros j Hj. replace j with (16 * s + (j - 16 * s)) by lia. apply Hnot; [|lia]. apply F. lia. }
      destruct (IH m1 (s + 1)) as (m' & F' & [(i & Hi & E' & W & M & G)|(E' & G)]); [lia| |];
        (exists m'; split; [intros a Ha; rewrite F' by exact Ha; apply F1; exact Ha|]).
      * left. exists i. split; [lia|]. split; [exact E'|]. split; [exact W|]. split; [exact M|].
        intros j Hj. destruct (N.lt_ge_cases j (16 * (s + 1))); [apply Here; lia|apply G; lia].
      * right. split; [exact E'|]. intros j Hj.
        destruct (N.lt_ge_cases j (16 * (s + 1))); [apply Here; lia|apply G; lia].
Qed.

Lemma find_spec disk m name :
  exists m', (forall a, a < 0x8000 \/ 0x8400 <= a -> m' a = m a) /\
  ((exists i, first_match disk name i /\ find_file disk m name = Ok (Some (dir_cluster disk i), m')) \/
   (no_match disk name /\ find_file disk m name = Ok (None, m'))).
Proof.
  destruct (search_root_spec disk name 14 m 0 eq_refl) as (m' & F & H).
  exists m'. split; [exact F|]. unfold find_file, RootDirStartSectorNum.
  change (19 + 0) with 19 in H. change (16 * 0) with 0 in H.
  destruct H as [(i & Hi & E & W & M & G)|(E & G)].
  - left. exists i. split.
    + split; [lia|]. split; [exact M|]. intros j Hj. apply G. lia.
    + rewrite E. cbn [obind]. replace (0x8000 + 32 * (i mod 16) + 11) with (0x8000 + (32 * (i mod 16) + 11)) by lia.
      rewrite align by lia. replace ((32 * (i mod 16) + 11) / 32) with (i mod 16) by lia.
      unfold add16. rewrite N.mod_small by lia. rewrite W. reflexivity.
  - right. split; [intros j Hj; apply G; lia|]. rewrite E. reflexivity.
Qed.

Lemma first_match_unique disk name i j : first_match disk name i -> first_match disk name j -> i = j.
Proof.
  intros (Hi & Mi & Fi) (Hj & Mj & Fj).
  destruct (N.lt_trichotomy i j) as [L|[E|L]]; [exfalso; exact (Fj i L Mi)|exact E|exfalso; exact (Fi j L Mj)].
Qed.
Lemma find_first disk m name i : first_match disk name i ->
  exists m', find_file disk m name = Ok (Some (dir_cluster disk i), m') /\
    forall a, a < 0x8000 \/ 0x8400 <= a -> m' a = m a.
Proof.
  intros Hi. destruct (find_spec disk m name) as (m' & F & [(j & Hj & E)|(H0 & E)]).
  - rewrite (first_match_unique _ _ _ _ Hi Hj). eauto.
  - destruct Hi as (H1 & H2 & H3). exfalso. exact (H0 i H1 H2).
Qed.
Lemma find_iff disk m name :
  (forall c, (exists m', find_file disk m name = Ok (Some c, m')) <-> exists i, first_match disk name i /\ c = dir_cluster disk i) /\
  ((exists m', find_file disk m name = Ok (None, m')) <-> no_match disk name).
Proof.
  destruct (find_spec disk m name) as (m' & F & [(j & Hj & E)|(H0 & E)]); rewrite E; split.
  - intros c. split.
    + intros (m1 & E1). injection E1 as <- _. eauto.
    + intros (i & Hi & ->). rewrite (first_match_unique _ _ _ _ Hi Hj). eauto.
  - split; [intros (m1 & E1); discriminate|]. intros H0. destruct Hj as (H1 & H2 & _). exfalso. exact (H0 j H1 H2).
  - intros c. split; [intros (m1 & E1); discriminate|]. intros (i & (H1 & H2 & _) & _). exfalso. exact (H0 i H1 H2).
  - split; [intros _; exact H0|]. eauto.
Qed.

(** * Loading *)
Lemma chain_head disk c cs v : file_chain disk c cs v -> data_cluster c /\ exists cs', cs = c :: cs'.
Proof. intros H. destruct H; eauto. Qed.

Lemma cluster_sector_eq c : c < 2849 -> cluster_sector c = c + 31.
Proof.
  intros H. unfold cluster_sector, add16, RootDirSectors, SectorBalance.
  rewrite (N.mod_small (c + 14)) by lia. rewrite N.mod_small by lia. lia.
Qed.

Lemma read_cluster disk m c dst : c < 2849 ->
  read_one_sector disk m (cluster_sector c) 1 dst = Ok (store m dst (load disk ((c + 31) * 512) 512)).
Proof.
  intros H. rewrite cluster_sector_eq by lia. rewrite read_ok by lia. reflexivity.
Qed.

(** Cell of 512 bytes *)
Definition in_cell (base : N) (a : N) : Prop := base <= a < base + 512.

Lemma load_loader_chain disk c cs v : byte_disk disk -> file_chain disk c cs v -> v = 0xfff ->
  forall fuel m k, (length cs <= fuel)%nat -> exists m',
    load_loader fuel disk m c (512 * (k mod 128)) = Ok m' /\
    (forall j c' r, cs !! j = Some c' -> (length cs <= j + 128)%nat -> r < 512 ->
       m' (0x10000 + 512 * ((k + N.of_nat j) mod 128) + r) = disk ((c' + 31) * 512 + r)) /\
    (forall a, a < 0x8000 \/ 0x8400 <= a ->
       (forall j, (j < length cs)%nat -> ~ in_cell (0x10000 + 512 * ((k + N.of_nat j) mod 128)) a) -> m' a = m a).
Proof.
  intros B H. induction H as [c Hc He|c cs v Hc H IH]; intros Hv fuel m k Hf.
  - destruct fuel as [|fuel]; [cbn [length] in Hf; lia|]. cbn [load_loader].
    assert (c < 2849) by (destruct Hc; lia). rewrite read_cluster by lia. cbn [obind].
    edestruct (get_fat_ok disk) as (m2 & E2 & F2); [exact B|shelve|]. rewrite E2. cbn [obind].
    rewrite Hv. rewrite N.eqb_refl. exists m2. split; [reflexivity|]. split.
    + intros j c' r Hj Hl Hr. destruct j as [|j]; [|rewrite lookup_cons in Hj; destruct j; discriminate].
      injection Hj as <-. rewrite F2 by lia. rewrite N.add_0_r.
      apply store_load_at. lia.
    + intros a Ha Hcell. rewrite F2 by lia. apply store_load_out.
      specialize (Hcell 0%nat). cbn [length] in Hcell. unfold in_cell in Hcell. rewrite N.add_0_r in Hcell.
      lia.
    Unshelve. lia.
  - destruct fuel as [|fuel]; [cbn [length] in Hf; lia|]. cbn [load_loader].
    assert (Hc' : c < 2849) by (destruct Hc; lia). rewrite read_cluster by lia. cbn [obind].
    set (m1 := store m _ _).
    destruct (get_fat_ok disk m1 c B) as (m2 & E2 & F2); [lia|]. rewrite E2. cbn [obind].
    destruct (chain_head _ _ _ _ H) as ([Hd1 Hd2] & cs' & Ecs).
    destruct (N.eqb_spec (fat_entry disk c) 0xfff) as [E|E]; [lia|].
    unfold add16, BPB_BytesPerSec.
    replace ((512 * (k mod 128) + 512) mod 65536) with (512 * ((k + 1) mod 128)) by lia.
    destruct (IH Hv fuel m2 (k + 1)) as (m' & E' & L' & F'); [cbn [length] in Hf; lia|].
    exists m'. split; [exact E'|]. split.
    + intros j c' r Hj Hl Hr. destruct j as [|j].
      * cbn in Hj. injection Hj as <-. cbn [length] in Hl. rewrite N.add_0_r.
        rewrite F'; [| lia |].
        -- rewrite F2 by lia. apply store_load_at. lia.
        -- intros j Hj. unfold in_cell. lia.
      * cbn [lookup list_lookup] in Hj. cbn [length] in Hl.
        replace (k + N.of_nat (S j)) with (k + 1 + N.of_nat j) by lia. apply L'; [exact Hj|lia|exact Hr].
    + intros a Ha Hcell. rewrite F'.
      * rewrite F2 by lia. apply store_load_out. specialize (Hcell 0%nat). cbn [length] in Hcell.
        unfold in_cell in Hcell. rewrite N.add_0_r in Hcell. lia.
      * exact Ha.
      * intros j Hj. specialize (Hcell (S j)). cbn [length] in Hcell.
        replace (k + N.of_nat (S j)) with (k + 1 + N.of_nat j) in Hcell by lia. apply Hcell. lia.
Qed.

Lemma mov_kernel_spec n : forall m esi edi,
  esi + N.of_nat n <= 0x8000 -> 0x8400 <= edi -> edi + N.of_nat n < 4294967296 ->
  let r := mov_kernel n m esi edi in
  snd r = edi + N.of_nat n /\
  (forall i, i < N.of_nat n -> fst r (edi + i) = m (esi + i)) /\
  (forall a, a < edi \/ edi + N.of_nat n <= a -> fst r a = m a).
Proof.
  induction n as [|n IH]; intros m esi edi H1 H2 H3; cbn [mov_kernel].
  - cbn [fst snd]. repeat split; lia.
  - unfold add32. rewrite !N.mod_small by lia.
    destruct (IH (fun x => if x =? edi then m esi else m x) (esi + 1) (edi + 1)) as (E & A & F); [lia|lia|lia|].
    split; [rewrite E; lia|]. split.
    + intros i Hi. destruct (N.eq_dec i 0) as [->|].
      * rewrite !N.add_0_r. rewrite F by lia. rewrite N.eqb_refl. reflexivity.
      * replace (edi + i) with (edi + 1 + (i - 1)) by lia. rewrite A by lia.
        destruct (N.eqb_spec (esi + 1 + (i - 1)) edi); [lia|]. f_equal. lia.
    + intros a Ha. rewrite F by lia. destruct (N.eqb_spec a edi); [lia|reflexivity].
Qed.

Lemma load_kernel_chain disk c cs v : byte_disk disk -> file_chain disk c cs v -> v = 0xfff ->
  forall fuel m edi, (length cs <= fuel)%nat -> 0x8400 <= edi -> edi + 512 * N.of_nat (length cs) < 4294967296 ->
  exists m', load_kernel fuel disk m c edi = Ok (m', edi + 512 * N.of_nat (length cs)) /\
    (forall j c' r, cs !! j = Some c' -> r < 512 -> m' (edi + 512 * N.of_nat j + r) = disk ((c' + 31) * 512 + r)) /\
    (forall a, a < 0x7e00 \/ 0x8400 <= a -> a < edi \/ edi + 512 * N.of_nat (length cs) <= a -> m' a = m a).
Proof.
  intros B H. induction H as [c Hc He|c cs v Hc H IH]; intros Hv fuel m edi Hf Hlo Hhi.
  - destruct fuel as [|fuel]; [cbn [length] in Hf; lia|]. cbn [load_kernel].
    assert (c < 2849) by (destruct Hc; lia). rewrite read_cluster by lia. cbn [obind].
    set (m1 := store m 0x7e00 _).
    pose proof (mov_kernel_spec 512 m1 0x7e00 edi) as M. cbn [length] in Hhi.
    destruct (mov_kernel 512 m1 0x7e00 edi) as [m2 edi2]. cbn [fst snd] in M.
    destruct M as (-> & A & F); [lia|lia|lia|].
    destruct (get_fat_ok disk m2 c B) as (m3 & E3 & F3); [lia|]. rewrite E3. cbn [obind].
    rewrite Hv. rewrite N.eqb_refl. exists m3. split; [do 2 f_equal; cbn [length]; lia|]. split.
    + intros j c' r Hj Hr. destruct j as [|j]; [|rewrite lookup_cons in Hj; destruct j; discriminate].
      injection Hj as <-. rewrite F3 by lia. rewrite N.mul_0_r, N.add_0_r. rewrite A by lia.
      apply store_load_at. lia.
    + intros a Ha Hb. cbn [length] in Hb. rewrite F3 by lia. rewrite F by lia. apply store_load_out. lia.
  - destruct fuel as [|fuel]; [cbn [length] in Hf; lia|]. cbn [load_kernel].
    assert (Hc' : c < 2849) by (destruct Hc; lia). rewrite read_cluster by lia. cbn [obind].
    set (m1 := store m 0x7e00 _).
    pose proof (mov_kernel_spec 512 m1 0x7e00 edi) as M. cbn [length] in Hhi.
    destruct (mov_kernel 512 m1 0x7e00 edi) as [m2 edi2]. cbn [fst snd] in M.
    destruct M as (-> & A & F); [lia|lia|lia|].
    destruct (get_fat_ok disk m2 c B) as (m3 & E3 & F3); [lia|]. rewrite E3. cbn [obind].
    destruct (chain_head _ _ _ _ H) as ([Hd1 Hd2] & cs' & Ecs).
    destruct (N.eqb_spec (fat_entry disk c) 0xfff) as [E|E]; [lia|].
    destruct (IH Hv fuel m3 (edi + N.of_nat 512)) as (m' & E' & L' & F'); [cbn [length] in Hf; lia|lia|lia|].
    exists m'. split; [rewrite E'; do 2 f_equal; cbn [length]; lia|]. split.
    + intros j c' r Hj Hr. destruct j as [|j].
      * cbn in Hj. injection Hj as <-. rewrite F' by lia. rewrite F3 by lia.
        rewrite N.mul_0_r, N.add_0_r. rewrite A by lia. apply store_load_at. lia.
      * cbn [lookup list_lookup] in Hj. rewrite <-(L' j c' r Hj Hr). f_equal. lia.
    + intros a Ha Hb. cbn [length] in Hb. rewrite F' by lia. rewrite F3 by lia. rewrite F by lia.
      apply store_load_out. lia.
Qed.

(** Chains do not repeat a cluster, hence are short. *)
Lemma end_not_data v : end_mark v -> data_cluster v -> False.
Proof. unfold end_mark, data_cluster. lia. Qed.
Lemma chain_det disk c cs v : file_chain disk c cs v -> forall cs' v', file_chain disk c cs' v' -> cs = cs' /\ v = v'.
Proof.
  induction 1 as [c Hc He|c cs v Hc H IH]; intros cs' v' H'.
  - inversion H' as [c1 Hc1 He1 X1 X2 X3|c1 cs1 v1 Hc1 H1 X1 X2 X3]; subst; [split; reflexivity|].
    apply chain_head in H1 as [H1 _]. exfalso. eapply end_not_data; eassumption.
  - inversion H' as [c1 Hc1 He1 X1 X2 X3|c1 cs1 v1 Hc1 H1 X1 X2 X3]; subst.
    + apply chain_head in H as [H _]. exfalso. eapply end_not_data; eassumption.
    + destruct (IH _ _ H1) as [-> ->]. split; reflexivity.
Qed.
Lemma chain_mem disk c cs v : file_chain disk c cs v -> forall x, x ∈ cs ->
  data_cluster x /\ exists cs', file_chain disk x cs' v /\ (length cs' <= length cs)%nat.
Proof.
  induction 1 as [c Hc He|c cs v Hc H IH]; intros x Hx.
  - apply elem_of_list_singleton in Hx as ->. split; [exact Hc|]. exists [c]. split; [apply chain_last; assumption|reflexivity].
  - apply elem_of_cons in Hx as [->|Hx].
    + split; [exact Hc|]. exists (c :: cs). split; [apply chain_next; assumption|reflexivity].
    + destruct (IH x Hx) as (D & cs' & H' & L). split; [exact D|]. exists cs'. split; [exact H'|]. cbn [length]. lia.
Qed.
Lemma chain_nodup disk c cs v : file_chain disk c cs v -> NoDup cs.
Proof.
  induction 1 as [c Hc He|c cs v Hc H IH].
  - apply NoDup_singleton.
  - apply NoDup_cons. split; [|exact IH]. intros Hx.
    destruct (chain_mem _ _ _ _ H _ Hx) as (_ & cs' & H' & L).
    destruct (chain_det _ _ _ _ (chain_next _ _ _ _ Hc H) _ _ H') as [E _]. rewrite <-E in L. cbn [length] in L. lia.
Qed.
Lemma chain_length disk c cs v : file_chain disk c cs v -> (length cs <= 2847)%nat.
Proof.
  intros H. pose proof (chain_nodup _ _ _ _ H) as ND.
  assert (S : cs ⊆+ (N.of_nat <$> seq 2 2847)).
  { apply NoDup_submseteq; [exact ND|]. intros x Hx. destruct (chain_mem _ _ _ _ H x Hx) as ([A C] & _).
    apply elem_of_list_fmap. exists (N.to_nat x). split; [lia|]. apply elem_of_list_In, in_seq. lia. }
  apply submseteq_length in S. rewrite fmap_length, seq_length in S. exact S.
Qed.

Lemma file_byte_cell disk cs i b : file_byte disk cs i = Some b <->
  exists c, cs !! N.to_nat (i / 512) = Some c /\ b = disk ((c + 31) * 512 + i mod 512).
Proof.
  unfold file_byte. destruct (cs !! N.to_nat (i / 512)) as [c|]; cbn.
  - split; [intros E; injection E as <-; eauto|intros (c' & E & ->); injection E as <-; reflexivity].
  - split; [discriminate|intros (c' & E & _); discriminate].
Qed.

Lemma load_loader_exact disk c cs m fuel : byte_disk disk -> file_chain disk c cs 0xfff -> (length cs <= fuel)%nat ->
  exists m', load_loader fuel disk m c 0 = Ok m' /\
    (forall i b, file_byte disk cs i = Some b -> 512 * N.of_nat (length cs) <= 512 * (i / 512) + 65536 ->
       m' (0x10000 + i mod 65536) = b) /\
    (forall a, a < 0x8000 \/ 0x8400 <= a -> a < 0x10000 \/ 0x20000 <= a \/ 0x10000 + 512 * N.of_nat (length cs) <= a ->
       m' a = m a).
Proof.
  intros B H Hf. destruct (load_loader_chain _ _ _ _ B H eq_refl fuel m 0 Hf) as (m' & E & L & F).
  change (512 * (0 mod 128)) with 0 in E. exists m'. split; [exact E|]. split.
  - intros i b Hb Hi. apply file_byte_cell in Hb as (c' & Hc & ->).
    rewrite <-(L _ c' (i mod 512) Hc) by lia. f_equal. lia.
  - intros a Ha Hb. apply F; [exact Ha|]. intros j Hj. unfold in_cell. lia.
Qed.
Lemma load_loader_short disk c cs m fuel : byte_disk disk -> file_chain disk c cs 0xfff ->
  (length cs <= 128)%nat -> (length cs <= fuel)%nat ->
  exists m', load_loader fuel disk m c 0 = Ok m' /\
    (forall i b, file_byte disk cs i = Some b -> m' (0x10000 + i) = b) /\
    (forall a, a < 0x8000 \/ 0x8400 <= a -> a < 0x10000 \/ 0x10000 + 512 * N.of_nat (length cs) <= a -> m' a = m a).
Proof.
  intros B H Hs Hf. destruct (load_loader_exact disk c cs m fuel B H Hf) as (m' & E & L & F).
  exists m'. split; [exact E|]. split.
  - intros i b Hb. rewrite <-(L i b Hb) by lia. f_equal.
    apply file_byte_cell in Hb as (c' & Hc & _). apply lookup_lt_Some in Hc. symmetry. rewrite N.mod_small by lia. reflexivity.
  - intros a Ha Hb. apply F; [exact Ha|]. destruct Hb; [left|right; right]; assumption.
Qed.
Lemma load_kernel_exact disk c cs m fuel : byte_disk disk -> file_chain disk c cs 0xfff -> (length cs <= fuel)%nat ->
  exists m', load_kernel fuel disk m c 0x100000 = Ok (m', 0x100000 + 512 * N.of_nat (length cs)) /\
    (forall i b, file_byte disk cs i = Some b -> m' (0x100000 + i) = b) /\
    (forall a, a < 0x7e00 \/ 0x8400 <= a -> a < 0x100000 \/ 0x100000 + 512 * N.of_nat (length cs) <= a -> m' a = m a).
Proof.
  intros B H Hf. pose proof (chain_length _ _ _ _ H) as Hl.
  destruct (load_kernel_chain _ _ _ _ B H eq_refl fuel m 0x100000 Hf) as (m' & E & L & F); [lia|lia|].
  exists m'. split; [exact E|]. split; [|exact F].
  intros i b Hb. apply file_byte_cell in Hb as (c' & Hc & ->).
  rewrite <-(L _ c' (i mod 512) Hc) by lia. f_equal. lia.
Qed.

(** Other end marks: the mark is taken for a cluster and its sector does not exist. *)
Lemma read_end disk m v dst : end_mark v -> read_one_sector disk m (cluster_sector v) 1 dst = Fuel.
Proof.
  intros [H1 H2]. apply read_hang. unfold cluster_sector, add16, RootDirSectors, SectorBalance.
  rewrite (N.mod_small (v + 14)) by lia. rewrite N.mod_small by lia. lia.
Qed.
Lemma load_loader_hang disk c cs v : byte_disk disk -> file_chain disk c cs v -> v <> 0xfff ->
  forall fuel m bx, load_loader fuel disk m c bx = Fuel.
Proof.
  intros B H. induction H as [c Hc He|c cs v Hc H IH]; intros Hv fuel m bx.
  - destruct fuel as [|fuel]; [reflexivity|]. cbn [load_loader].
    assert (c < 2849) by (destruct Hc; lia). rewrite read_cluster by lia. cbn [obind].
    edestruct (get_fat_ok disk) as (m2 & E2 & F2); [exact B|shelve|]. rewrite E2. cbn [obind].
    destruct (N.eqb_spec (fat_entry disk c) 0xfff) as [E|E]; [contradiction|].
    destruct fuel as [|fuel]; [reflexivity|]. cbn [load_loader]. rewrite read_end by exact He. reflexivity.
    Unshelve. lia.
  - destruct fuel as [|fuel]; [reflexivity|]. cbn [load_loader].
    assert (c < 2849) by (destruct Hc; lia). rewrite read_cluster by lia. cbn [obind].
    edestruct (get_fat_ok disk) as (m2 & E2 & F2); [exact B|shelve|]. rewrite E2. cbn [obind].
    destruct (chain_head _ _ _ _ H) as ([Hd1 Hd2] & cs' & Ecs).
    destruct (N.eqb_spec (fat_entry disk c) 0xfff) as [E|E]; [lia|]. apply IH. exact Hv.
    Unshelve. lia.
Qed.
Lemma load_kernel_hang disk c cs v : byte_disk disk -> file_chain disk c cs v -> v <> 0xfff ->
  forall fuel m edi, load_kernel fuel disk m c edi = Fuel.
Proof.
  intros B H. induction H as [c Hc He|c cs v Hc H IH]; intros Hv fuel m edi.
  - destruct fuel as [|fuel]; [reflexivity|]. cbn [load_kernel].
    assert (c < 2849) by (destruct Hc; lia). rewrite read_cluster by lia. cbn [obind].
    destruct (mov_kernel 512 _ 0x7e00 edi) as [m2 edi2].
    destruct (get_fat_ok disk m2 c B) as (m3 & E3 & F3); [lia|]. rewrite E3. cbn [obind].
    destruct (N.eqb_spec (fat_entry disk c) 0xfff) as [E|E]; [contradiction|].
    destruct fuel as [|fuel]; [reflexivity|]. cbn [load_kernel]. rewrite read_end by exact He. reflexivity.
  - destruct fuel as [|fuel]; [reflexivity|]. cbn [load_kernel].
    assert (c < 2849) by (destruct Hc; lia). rewrite read_cluster by lia. cbn [obind].
    destruct (mov_kernel 512 _ 0x7e00 edi) as [m2 edi2].
    destruct (get_fat_ok disk m2 c B) as (m3 & E3 & F3); [lia|]. rewrite E3. cbn [obind].
    destruct (chain_head _ _ _ _ H) as ([Hd1 Hd2] & cs' & Ecs).
    destruct (N.eqb_spec (fat_entry disk c) 0xfff) as [E|E]; [lia|]. apply IH. exact Hv.
Qed.

(** Whole boot steps. *)
Lemma boot_kernel_ok disk m name i cs fuel : byte_disk disk -> first_match disk name i ->
  file_chain disk (dir_cluster disk i) cs 0xfff -> (length cs <= fuel)%nat ->
  exists m', boot_kernel fuel disk m name = Ok (Some m') /\
    forall k b, file_byte disk cs k = Some b -> m' (0x100000 + k) = b.
Proof.
  intros B Hi H Hf. unfold boot_kernel. destruct (find_first disk m name i Hi) as (m1 & E1 & _).
  rewrite E1. cbn [obind]. destruct (load_kernel_exact disk _ cs m1 fuel B H Hf) as (m2 & E2 & L & _).
  rewrite E2. cbn [obind]. eauto.
Qed.
Lemma boot_loader_ok disk m name i cs fuel : byte_disk disk -> first_match disk name i ->
  file_chain disk (dir_cluster disk i) cs 0xfff -> (length cs <= 128)%nat -> (length cs <= fuel)%nat ->
  exists m', boot_loader fuel disk m name = Ok (Some m') /\
    forall k b, file_byte disk cs k = Some b -> m' (0x10000 + k) = b.
Proof.
  intros B Hi H Hs Hf. unfold boot_loader. destruct (find_first disk m name i Hi) as (m1 & E1 & _).
  rewrite E1. cbn [obind]. destruct (load_loader_short disk _ cs m1 fuel B H Hs Hf) as (m2 & E2 & L & _).
  rewrite E2. cbn [omap obind]. eauto.
Qed.

Lemma read_inv disk m c dst m' : c < 65536 -> read_one_sector disk m (cluster_sector c) 1 dst = Ok m' ->
  c < 2849 \/ 65505 <= c.
Proof.
  intros Hc H. destruct (N.lt_ge_cases c 2849) as [|H1]; [lia|]. destruct (N.lt_ge_cases c 65505) as [H2|]; [|lia].
  exfalso. assert (E : cluster_sector c = c + 31).
  { unfold cluster_sector, add16, RootDirSectors, SectorBalance.
    rewrite (N.mod_small (c + 14)) by lia. rewrite N.mod_small by lia. lia. }
  rewrite E in H. destruct (N.lt_ge_cases (c + 31) 4608).
  - rewrite read_hang in H by lia. discriminate.
  - rewrite read_div in H by lia. discriminate.
Qed.
Lemma fat_entry_small disk c : fat_entry disk c < 4096.
Proof. unfold fat_entry. apply N.mod_lt. discriminate. Qed.
Lemma get_fat_big disk m c : 65505 <= c -> get_fat_entry disk m c = UB.
Proof. intros H. unfold get_fat_entry. destruct (N.leb_spec 65536 (c * 3 / 2)) as [H1|H1]; [reflexivity|lia]. Qed.

Lemma links_one disk c : c < 2849 -> fat_entry disk c = 0xfff -> links disk c [c].
Proof. intros H E. exact (conj eq_refl (conj H E)). Qed.
Lemma links_cons disk c cs : c < 2849 -> links disk (fat_entry disk c) cs -> links disk c (c :: cs).
Proof. intros H L. destruct cs as [|c1 cs1]; [destruct L|]. exact (conj eq_refl (conj H L)). Qed.

Lemma load_kernel_S fuel disk m c edi : load_kernel (S fuel) disk m c edi =
  obind (read_one_sector disk m (cluster_sector c) 1 0x7e00) (fun m =>
    obind (get_fat_entry disk (fst (mov_kernel 512 m 0x7e00 edi)) c) (fun p =>
      if fst p =? 0xfff then Ok (snd p, snd (mov_kernel 512 m 0x7e00 edi))
      else load_kernel fuel disk (snd p) (fst p) (snd (mov_kernel 512 m 0x7e00 edi)))).
Proof.
  cbn [load_kernel]. destruct (read_one_sector disk m (cluster_sector c) 1 0x7e00) as [m1| |]; [|reflexivity|reflexivity].
  cbn [obind]. destruct (mov_kernel 512 m1 0x7e00 edi) as [m2 e2]. cbn [fst snd].
  destruct (get_fat_entry disk m2 c) as [[ax m3]| |]; reflexivity.
Qed.
Lemma load_kernel_sound disk : byte_disk disk -> forall fuel m c edi r, c < 65536 ->
  load_kernel fuel disk m c edi = Ok r -> exists cs, links disk c cs /\ (length cs <= fuel)%nat.
Proof.
  intros B fuel. induction fuel as [|fuel IH]; intros m c edi r Hc; [discriminate|].
  rewrite load_kernel_S.
  destruct (read_one_sector disk m (cluster_sector c) 1 0x7e00) as [m1| |] eqn:E1; [|discriminate|discriminate]. cbn [obind].
  generalize (mov_kernel 512 m1 0x7e00 edi). intros [m2 edi2]. cbn [fst snd].
  apply read_inv in E1 as [Hs|Hs]; [|rewrite get_fat_big by lia; discriminate|exact Hc].
  destruct (get_fat_ok disk m2 c B) as (m3 & E3 & _); [lia|]. rewrite E3. cbn [obind fst snd].
  pose proof (links_one disk c Hs) as L1. pose proof (fun cs => links_cons disk c cs Hs) as LC.
  pose proof (fat_entry_small disk c) as Hv. clear E3. revert L1 LC Hv. generalize (fat_entry disk c) as v. intros v L1 LC Hv.
  destruct (N.eqb_spec v 0xfff) as [E|E]; intros H.
  - exists [c]. split; [exact (L1 E)|]. cbn [length]. lia.
  - apply IH in H as (cs & L & Hl); [|lia]. exists (c :: cs). split; [exact (LC cs L)|]. cbn [length]. lia.
Qed.
Lemma load_loader_sound disk : byte_disk disk -> forall fuel m c bx r, c < 65536 ->
  load_loader fuel disk m c bx = Ok r -> exists cs, links disk c cs /\ (length cs <= fuel)%nat.
Proof.
  intros B fuel. induction fuel as [|fuel IH]; intros m c bx r Hc; [discriminate|].
  cbn [load_loader].
  destruct (read_one_sector disk m (cluster_sector c) 1 (0x10000 + bx)) as [m1| |] eqn:E1; [|discriminate|discriminate]. cbn [obind].
  apply read_inv in E1 as [Hs|Hs]; [|rewrite get_fat_big by lia; discriminate|exact Hc].
  destruct (get_fat_ok disk m1 c B) as (m3 & E3 & _); [lia|]. rewrite E3. cbn [obind].
  pose proof (links_one disk c Hs) as L1. pose proof (fun cs => links_cons disk c cs Hs) as LC.
  pose proof (fat_entry_small disk c) as Hv. clear E3. revert L1 LC Hv. generalize (fat_entry disk c) as v. intros v L1 LC Hv.
  destruct (N.eqb_spec v 0xfff) as [E|E]; intros H.
  - exists [c]. split; [exact (L1 E)|]. cbn [length]. lia.
  - apply IH in H as (cs & L & Hl); [|lia]. exists (c :: cs). split; [exact (LC cs L)|]. cbn [length]. lia.
Qed.
Lemma find_frame disk m name : exists r m', find_file disk m name = Ok (r, m') /\
  forall a, a < 0x8000 \/ 0x8400 <= a -> m' a = m a.
Proof. destruct (find_spec disk m name) as (m' & F & [(j & _ & E)|(_ & E)]); eauto. Qed.
