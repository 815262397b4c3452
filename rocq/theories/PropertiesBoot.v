(** C54-C57: the floppy boot code. *)
From stdpp Require Import list.
From Coq Require Import NArith.
From Verif Require Import Base E820Model FatModel FatSpec FatProofs FatExamples.
Local Open Scope N_scope.

(** C54: for every table and every cluster number the table holds (3072; the disk has 2847 data
    clusters) the 12-bit entry is read; memory outside the 1024-byte buffer is unchanged. *)
Theorem C54_fat_entry : forall disk m c, byte_disk disk -> c < 3072 ->
  exists m', get_fat_entry disk m c = Ok (fat_entry disk c, m') /\
    forall a, a < 0x8000 \/ 0x8400 <= a -> m' a = m a.
Proof. exact get_fat_ok. Qed.
Print Assumptions C54_fat_entry.
Example C54_example :
  byte_disk disk1 /\ 341 < 3072 /\ 3 * 341 / 2 mod 512 = 511 /\ fat_entry disk1 341 = 7 /\
  match get_fat_entry disk1 no_mem 341 with Ok (v, _) => v = 7 | _ => False end.
Proof. exact entry_demo. Qed.

(** C55 (part): a file with end mark 0xFFF is copied byte by byte to 1 MiB, whatever its length.
    Missing: the end marks 0xFF8..0xFFE, see C55_marks_hang. *)
Theorem C55_kernel_partial : forall disk c cs m fuel,
  byte_disk disk -> file_chain disk c cs 0xfff -> (length cs <= fuel)%nat ->
  exists m', load_kernel fuel disk m c 0x100000 = Ok (m', 0x100000 + 512 * N.of_nat (length cs)) /\
    (forall i b, file_byte disk cs i = Some b -> m' (0x100000 + i) = b) /\
    (forall a, a < 0x7e00 \/ 0x8400 <= a -> a < 0x100000 \/ 0x100000 + 512 * N.of_nat (length cs) <= a -> m' a = m a).
Proof. exact load_kernel_exact. Qed.
Print Assumptions C55_kernel_partial.

(** C55 (part): the second stage, a file of at most 128 sectors with end mark 0xFFF.
    Missing: longer files (C55_loader_wrap) and the other end marks. *)
Theorem C55_loader_partial : forall disk c cs m fuel,
  byte_disk disk -> file_chain disk c cs 0xfff -> (length cs <= 128)%nat -> (length cs <= fuel)%nat ->
  exists m', load_loader fuel disk m c 0 = Ok m' /\
    (forall i b, file_byte disk cs i = Some b -> m' (0x10000 + i) = b) /\
    (forall a, a < 0x8000 \/ 0x8400 <= a -> a < 0x10000 \/ 0x10000 + 512 * N.of_nat (length cs) <= a -> m' a = m a).
Proof. exact load_loader_short. Qed.
Print Assumptions C55_loader_partial.

(** Both steps together: search, then load. *)
Theorem C55_boot_kernel_partial : forall disk m name i cs fuel,
  byte_disk disk -> first_match disk name i -> file_chain disk (dir_cluster disk i) cs 0xfff -> (length cs <= fuel)%nat ->
  exists m', boot_kernel fuel disk m name = Ok (Some m') /\
    forall k b, file_byte disk cs k = Some b -> m' (0x100000 + k) = b.
Proof. exact boot_kernel_ok. Qed.
Print Assumptions C55_boot_kernel_partial.
Theorem C55_boot_loader_partial : forall disk m name i cs fuel,
  byte_disk disk -> first_match disk name i -> file_chain disk (dir_cluster disk i) cs 0xfff ->
  (length cs <= 128)%nat -> (length cs <= fuel)%nat ->
  exists m', boot_loader fuel disk m name = Ok (Some m') /\
    forall k b, file_byte disk cs k = Some b -> m' (0x10000 + k) = b.
Proof. exact boot_loader_ok. Qed.
Print Assumptions C55_boot_loader_partial.
Example C55_example :
  byte_disk disk1 /\ first_match disk1 demo_name 17 /\ file_chain disk1 (dir_cluster disk1 17) [2; 340; 341; 7] 0xfff /\
  file_byte disk1 [2; 340; 341; 7] 1500 = Some 121.
Proof. exact chain_demo. Qed.

(** A file never has more than 2847 clusters, so the fuel above can always be met and the kernel
    always ends below 0x264000. *)
Theorem C55_chain_bounded : forall disk c cs v, file_chain disk c cs v -> (length cs <= 2847)%nat.
Proof. exact chain_length. Qed.
Print Assumptions C55_chain_bounded.

(** The loaders finish only by following entries of existing clusters to one that holds 0xFFF. *)
Theorem C55_kernel_sound : forall disk, byte_disk disk -> forall fuel m c edi r, c < 65536 ->
  load_kernel fuel disk m c edi = Ok r -> exists cs, links disk c cs /\ (length cs <= fuel)%nat.
Proof. exact load_kernel_sound. Qed.
Print Assumptions C55_kernel_sound.
Theorem C55_loader_sound : forall disk, byte_disk disk -> forall fuel m c bx r, c < 65536 ->
  load_loader fuel disk m c bx = Ok r -> exists cs, links disk c cs /\ (length cs <= fuel)%nat.
Proof. exact load_loader_sound. Qed.
Print Assumptions C55_loader_sound.

(** Every file whose end mark is 0xFF8..0xFFE: neither loader ever finishes. *)
Theorem C55_marks_hang : forall disk c cs v, byte_disk disk -> file_chain disk c cs v -> v <> 0xfff ->
  forall fuel m edi, load_kernel fuel disk m c edi = Fuel.
Proof. exact load_kernel_hang. Qed.
Print Assumptions C55_marks_hang.
Theorem C55_marks_hang_loader : forall disk c cs v, byte_disk disk -> file_chain disk c cs v -> v <> 0xfff ->
  forall fuel m bx, load_loader fuel disk m c bx = Fuel.
Proof. exact load_loader_hang. Qed.
Print Assumptions C55_marks_hang_loader.
Theorem C55_marks_refuted : exists disk c cs v, byte_disk disk /\ file_chain disk c cs v /\
  (forall fuel m, load_kernel fuel disk m c 0x100000 = Fuel) /\ (forall fuel m, load_loader fuel disk m c 0 = Fuel).
Proof. exact marks_refuted. Qed.
Print Assumptions C55_marks_refuted.

(** The second stage of any length: sector j lands at offset 512*j modulo 64 KiB, so of a file longer
    than 128 sectors only the last 128 sectors remain, wrapped around. *)
Theorem C55_loader_wrap : forall disk c cs m fuel,
  byte_disk disk -> file_chain disk c cs 0xfff -> (length cs <= fuel)%nat ->
  exists m', load_loader fuel disk m c 0 = Ok m' /\
    (forall i b, file_byte disk cs i = Some b -> 512 * N.of_nat (length cs) <= 512 * (i / 512) + 65536 ->
       m' (0x10000 + i mod 65536) = b) /\
    (forall a, a < 0x8000 \/ 0x8400 <= a -> a < 0x10000 \/ 0x20000 <= a \/ 0x10000 + 512 * N.of_nat (length cs) <= a ->
       m' a = m a).
Proof. exact load_loader_exact. Qed.
Print Assumptions C55_loader_wrap.
Theorem C55_loader_long_refuted : exists disk c cs m m' i b, byte_disk disk /\ file_chain disk c cs 0xfff /\
  load_loader (length cs) disk m c 0 = Ok m' /\ file_byte disk cs i = Some b /\ m' (0x10000 + i) <> b.
Proof. exact wrap_refuted. Qed.
Print Assumptions C55_loader_long_refuted.

(** C56 *)
Theorem C56_chs : forall L n, L < 2880 -> exists r, chs L n = Ok r /\
  rq_cyl r < 80 /\ rq_head r < 2 /\ 1 <= rq_sec r <= 18 /\ rq_count r = n /\
  (rq_cyl r * 2 + rq_head r) * 18 + (rq_sec r - 1) = L.
Proof. exact chs_right. Qed.
Print Assumptions C56_chs.
Example C56_example : 2879 < 2880 /\
  chs 2879 1 = Ok {| rq_cyl := 79; rq_head := 1; rq_sec := 18; rq_count := 1 |} /\
  chs 19 1 = Ok {| rq_cyl := 0; rq_head := 1; rq_sec := 2; rq_count := 1 |}.
Proof. split; [reflexivity|split; reflexivity]. Qed.

(** C57 *)
Theorem C57_search : forall disk m name,
  (forall c, (exists m', find_file disk m name = Ok (Some c, m')) <->
             exists i, first_match disk name i /\ c = dir_cluster disk i) /\
  ((exists m', find_file disk m name = Ok (None, m')) <-> no_match disk name).
Proof. exact find_iff. Qed.
Print Assumptions C57_search.
(** It always finishes and touches only the buffer. *)
Theorem C57_frame : forall disk m name, exists r m', find_file disk m name = Ok (r, m') /\
  forall a, a < 0x8000 \/ 0x8400 <= a -> m' a = m a.
Proof. exact find_frame. Qed.
Print Assumptions C57_frame.
Example C57_example : first_match disk1 demo_name 17 /\ dir_cluster disk1 17 = 2 /\ no_match disk1 (fun _ => 1).
Proof. exact (conj (proj1 disk1_first) (conj (proj2 disk1_first) disk1_none)). Qed.
(** The name is all it looks at: a volume label, even behind the end of the directory, is accepted. *)
Theorem C57_not_a_file_refuted : exists disk name, byte_disk disk /\
  (forall i, i < 224 -> ~ (name_matches disk name i /\ dir_file disk i)) /\
  forall m, exists c m', find_file disk m name = Ok (Some c, m').
Proof. exact label_refuted. Qed.
Print Assumptions C57_not_a_file_refuted.
