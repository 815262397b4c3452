(** What is on the disk and what the boot code may disturb. *)
From stdpp Require Import list.
From Coq Require Import NArith.
From Verif Require Import SwitchModel SwitchSpec E820Model E820Spec FatSpec StageModel StageSpec.
Local Open Scope N_scope.

(** Memory that may change besides: vectors, BIOS data, stack and boot sector; the loader's variables [vars]; BIOS data, video
    memory and ROM. *)
Definition scratch (vars : N -> Prop) (a : N) : Prop := a < 0x7e00 \/ vars a \/ 0x9fc00 <= a < 0x100000.
Definition quiet (vars : N -> Prop) (noise : nat -> bytes -> bytes) : Prop :=
  forall i m a, ~ scratch vars a -> noise i m a = m a.
(** The first file of that name in the root directory has the clusters [cs] and the end mark 0xFFF. *)
Definition file_on (disk name : N -> N) (cs : list N) : Prop :=
  exists i, first_match disk name i /\ file_chain disk (dir_cluster disk i) cs 0xfff.
(** The file [cs] carries [P]: any memory with the file at [at_], its variables aside, has [P]. *)
Definition carries (disk : N -> N) (cs : list N) (at_ : N) (vars : N -> Prop) (P : bytes -> Prop) : Prop :=
  forall m, (forall k b, file_byte disk cs k = Some b -> ~ vars (at_ + k) -> m (at_ + k) = b) -> P m.
(** The last sector of a file as it lies at 0x7E00. *)
Definition last_sector (disk : N -> N) (cs : list N) : bytes :=
  fun a => match last cs with Some c => disk ((c + 31) * 512 + (a - 0x7e00)) | None => 0 end.
(** The entries the kernel takes from [m] behind the [n] entries that were stored: up to the twentieth place, as long as they
    look like memory ranges. *)
Inductive stale_entries (m : bytes) : nat -> list e820_entry -> Prop :=
| stale_end n : n = 20%nat \/ ~ entry_plain (read_entry m (0x7e00 + 20 * N.of_nat n)) -> stale_entries m n []
| stale_more n e l : (n < 20)%nat -> e = read_entry m (0x7e00 + 20 * N.of_nat n) -> entry_plain e -> stale_entries m (S n) l ->
    stale_entries m n (e :: l).
(** The floppy holds a loader of at most 64 KiB and a kernel, each where the other sources need their tables. *)
Record floppy (disk loader_name kernel_name : N -> N) (loader kernel : list N) (vars : N -> Prop) (L : layout) : Prop := {
  fl_bytes : byte_disk disk; fl_loader : file_on disk loader_name loader; fl_kernel : file_on disk kernel_name kernel;
  fl_size : (length loader <= 128)%nat; fl_vars : forall a, vars a -> 0x10000 <= a < 0x20000; fl_layout : layout_ok L;
  fl_loader_in : carries disk loader 0x10000 vars (loader_in L); fl_kernel_in : carries disk kernel 0x100000 vars (kernel_in L)
}.
(** The firmware lists the ranges [es] and answers the video call with [info]. *)
Record firmware (b : bios) (es : list e820_entry) (info : list N) : Prop := {
  fw_map : lists b 0 es; fw_count : (length es <= 20)%nat; fw_fits : Forall entry_ok es; fw_plain : Forall entry_plain es;
  fw_info : (length info <= 512)%nat
}.
