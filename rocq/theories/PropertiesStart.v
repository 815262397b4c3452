(** C72-C74: memory at the entry of main, global constructors, the write-protected page. *)
From stdpp Require Import list.
From Coq Require Import NArith Bool.
From Verif Require Import Base PagingModel PagingSpec SwitchModel SwitchSpec StartModel StartSpec StartProofs StartThms.
Local Open Scope N_scope.

(** C72 (part): memory from 0x93000 on, with the kernel image, is at the entry of main as it was before. Missing: statics
    that the image does not contain (.bss) must be zero. *)
Theorem C72_image_partial : forall L cpuid ret s,
  layout_ok L -> loader_in L (mem s) -> kernel_in L (mem s) -> real_mode L s -> has_long_mode cpuid = true ->
  exists s', boot L cpuid ret s = Go (Main s') /\ forall a, 0x93000 <= a -> mem s' a = mem s a.
Proof. exact image_kept. Qed.
Print Assumptions C72_image_partial.
(** Whatever bytes [g] lie behind the image, main finds them there. *)
Theorem C72_zero_refuted : forall g, exists L cpuid ret s s',
  layout_ok L /\ loader_in L (mem s) /\ kernel_in L (mem s) /\ real_mode L s /\
  has_long_mode cpuid = true /\ boot L cpuid ret s = Go (Main s') /\ forall a, 0x110000 <= a < 0x120000 -> mem s' a = g a.
Proof. exact statics_kept. Qed.
Print Assumptions C72_zero_refuted.

(** C73 (part): if the initialised data end at a multiple of 8, Init calls every constructor once, .init_array in link order first.
    Missing: without that condition, and with objects that have a priority. *)
Theorem C73_runs_partial : forall data arrays prio dot m is_ctor fuel start e m',
  link_data data arrays prio dot m = (start, e, m') -> start mod 8 = 0 -> e < 2 ^ 64 ->
  Forall (fun f => is_ctor f = true /\ f < 2 ^ 64) (concat arrays ++ concat prio) ->
  (length (concat arrays ++ concat prio) <= fuel)%nat ->
  run_ctors fuel is_ctor m' start e = Ok (concat arrays ++ concat prio).
Proof. exact ctors_run. Qed.
Print Assumptions C73_runs_partial.
Example C73_example : fst (fst three_ctors) mod 8 = 0 /\
  run_ctors 10 in_text (snd three_ctors) (fst (fst three_ctors)) (snd (fst three_ctors)) =
  Ok [0xffff800000100100; 0xffff800000100200; 0xffff800000100300].
Proof. exact three_run. Qed.
(** Otherwise start_ctors points into the padding and the loop, going up by 8, never meets end_ctors: for no contents of memory,
    constructors and number of rounds does it finish. *)
Theorem C73_misaligned_refuted : forall data arrays prio dot m start e m',
  link_data data arrays prio dot m = (start, e, m') -> start mod 8 <> 0 -> arrays ++ prio <> [] ->
  forall fuel is_ctor m2 fs, run_ctors fuel is_ctor m2 start e <> Ok fs.
Proof. exact ctors_misaligned. Qed.
Print Assumptions C73_misaligned_refuted.
Example C73_misaligned_example : fst (fst odd_ctors) = 0xffff800000109006 /\
  run_ctors 10 in_text (snd odd_ctors) (fst (fst odd_ctors)) (snd (fst odd_ctors)) = UB.
Proof. exact odd_run. Qed.
(** Objects with a priority come last instead of first. *)
Theorem C73_priority_refuted : exists data arrays prio dot m start e m' fs, link_data data arrays prio dot m = (start, e, m') /\
  run_ctors 10 (fun _ => true) m' start e = Ok fs /\ fs <> construction_order arrays prio.
Proof. exact priority_late. Qed.
Print Assumptions C73_priority_refuted.

(** C74 (part): main changes the tables so that exactly the page at 4 MiB, in both halves, is read-only. *)
Theorem C74_tables_partial : forall k1 k2 k3 s, boot_tables (m_mem s) -> tlb_ok s ->
  exists s', protect_page k1 k2 k3 s = Go s' /\
    forall va, va < 2 ^ 64 -> walk_at PagingModel.cr3 (quads (m_mem s')) va =
      match expected_phys va with
      | Some p => Some {| phys := p; user := false;
          writable := negb (match window_offset va with Some o => (0x400000 <=? o) && (o <? 0x600000) | None => false end) |}
      | None => None
      end.
Proof. exact page_protected. Qed.
Print Assumptions C74_tables_partial.
(** The write that follows faults exactly if the processor has forgotten the translation used by the first write; missing: always. *)
Theorem C74_write_partial : forall k1 k2 k3 k4 s, boot_tables (m_mem s) -> tlb_ok s ->
  if k2 (page_of cell) && k3 (page_of cell) && k4 (page_of cell)
  then exists s', main_writes k1 k2 k3 k4 s = Go s' /\ E820Model.load (m_mem s') 0x400100 8 = [2; 0; 0; 0; 0; 0; 0; 0]
  else main_writes k1 k2 k3 k4 s = Stop PF.
Proof. exact second_write. Qed.
Print Assumptions C74_write_partial.
Theorem C74_write_refuted : forall s, boot_tables (m_mem s) -> tlb_ok s -> exists k s', main_writes k k k k s = Go s'.
Proof. exact still_writable. Qed.
Print Assumptions C74_write_refuted.
Example C74_example : exists s, boot_tables (m_mem s) /\ tlb_ok s.
Proof. exact demo_machine. Qed.
