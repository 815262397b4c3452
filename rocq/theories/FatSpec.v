(** The FAT12 file system as such, without reference to the boot code. *)
From stdpp Require Import list.
From Coq Require Import NArith.
Local Open Scope N_scope.

(** Disk image: the byte at each offset. 512-byte sectors; FAT 1 in sectors 1..9, the root directory
    (224 entries of 32 bytes) in sectors 19..32, cluster 2 at sector 33, 2880 sectors. *)
Definition byte_disk (disk : N -> N) : Prop := forall a, disk a < 256.

(** The table read as one little-endian number; entry [c] is its c-th group of 12 bits. *)
Fixpoint number (f : N -> N) (a : N) (n : nat) : N :=
  match n with O => 0 | S n => f a + 256 * number f (a + 1) n end.
Definition fat_number (disk : N -> N) : N := number disk 512 (9 * 512).
Definition fat_entry (disk : N -> N) (c : N) : N := fat_number disk / 2 ^ (12 * c) mod 4096.

(** Data clusters that exist on the disk. *)
Definition data_cluster (c : N) : Prop := 2 <= c < 2849.
Definition end_mark (v : N) : Prop := 0xff8 <= v <= 0xfff.

(** [cs] are the clusters of the file starting at [c], [v] its end mark. *)
Inductive file_chain (disk : N -> N) : N -> list N -> N -> Prop :=
| chain_last c : data_cluster c -> end_mark (fat_entry disk c) -> file_chain disk c [c] (fat_entry disk c)
| chain_next c cs v : data_cluster c -> file_chain disk (fat_entry disk c) cs v ->
    file_chain disk c (c :: cs) v.

(** Byte [i] of the file. *)
Definition file_byte (disk : N -> N) (cs : list N) (i : N) : option N :=
  c ← cs !! N.to_nat (i / 512); Some (disk ((c + 31) * 512 + i mod 512)).

(** Root directory *)
Definition dir_offset (i : N) : N := 19 * 512 + 32 * i.
Definition name_matches (disk name : N -> N) (i : N) : Prop :=
  forall k, k < 11 -> disk (dir_offset i + k) = name k.
Definition dir_cluster (disk : N -> N) (i : N) : N :=
  disk (dir_offset i + 26) + 256 * disk (dir_offset i + 27).
Definition first_match (disk name : N -> N) (i : N) : Prop :=
  i < 224 /\ name_matches disk name i /\ forall j, j < i -> ~ name_matches disk name j.
Definition no_match (disk name : N -> N) : Prop := forall i, i < 224 -> ~ name_matches disk name i.

(** FAT: an entry whose first byte is 0 ends the directory; attribute bits 8 (volume label) and
    16 (directory) mark entries that are not files. *)
Definition dir_file (disk : N -> N) (i : N) : Prop :=
  (forall j, j <= i -> disk (dir_offset j) <> 0) /\ N.land (disk (dir_offset i + 11)) 0x18 = 0.

(** What a loader that has finished must have followed: clusters on the disk, each entry naming the
    next, the last one holding 0xFFF. (Entries 0 and 1 of the table are not excluded.) *)
Fixpoint links (disk : N -> N) (c : N) (cs : list N) : Prop :=
  match cs with
  | [] => False
  | c' :: cs' => c' = c /\ c < 2849 /\
      match cs' with [] => fat_entry disk c = 0xfff | _ => links disk (fat_entry disk c) cs' end
  end.
