(** C87: from the floppy to main, through every stage of the boot code. *)
From Coq Require Import ZArith String.
From stdpp Require Import gmap list.
From Coq Require Import NArith.
From Verif Require Import Base PagingModel SwitchModel SwitchSpec SwitchExamples E820Model E820Spec FatSpec FatExamples StageModel StageSpec StageProofs
  ChainModel ChainSpec ChainProofs ChainExamples VesaModel VesaSpec ConsoleModel ConsoleSpec ConsoleFault ConsoleExamples ChainScreen.
Local Open Scope N_scope.

(** C87: main is entered, and the memory map it reads is the firmware's followed by what the last sector of the kernel file looks
    like. *)
Theorem C87_boots : forall disk loader_name kernel_name loader kernel vars L b es info noise fuel m0 cpuid ret,
  floppy disk loader_name kernel_name loader kernel vars L -> firmware b es info -> quiet vars noise -> (2847 <= fuel)%nat ->
  has_long_mode cpuid = true ->
  exists m, load_all fuel disk loader_name kernel_name b info noise m0 = Ok (Some m) /\
    forall s, mem s = m -> real_mode L s -> exists s', boot L cpuid ret s = Go (Main s') /\ SwitchSpec.ready L s s' /\
      exists stale, e820_init (mem s') = (es ++ stale, usable_total (es ++ stale) mod 2 ^ 64) /\
        stale_entries (last_sector disk kernel) (length es) stale.
Proof. exact chain_all. Qed.
Print Assumptions C87_boots.
Example C87_example : floppy some_disk loader_file FatExamples.demo_name loader_clusters kernel_clusters some_vars demo_layout /\
  firmware one_bios one_map some_info /\ quiet some_vars some_noise /\ has_long_mode demo_cpuid = true /\
  stale_entries (last_sector some_disk kernel_clusters) (length one_map) [] /\
  exists m s s', load_all 2847 some_disk loader_file FatExamples.demo_name one_bios some_info some_noise no_mem = Ok (Some m) /\ mem s = m /\
    real_mode demo_layout s /\ boot demo_layout demo_cpuid 0x10428 s = Go (Main s') /\ e820_init (mem s') = (one_map, 0x1ff9fc00).
Proof. exact some_chain. Qed.

(** C87: exactly when main reads the firmware's map. *)
Theorem C87_map : forall disk loader_name kernel_name loader kernel vars L b es info noise fuel m0 cpuid ret,
  floppy disk loader_name kernel_name loader kernel vars L -> firmware b es info -> quiet vars noise -> (2847 <= fuel)%nat ->
  has_long_mode cpuid = true ->
  exists m, load_all fuel disk loader_name kernel_name b info noise m0 = Ok (Some m) /\
    forall s, mem s = m -> real_mode L s -> exists s', boot L cpuid ret s = Go (Main s') /\
      (fst (e820_init (mem s')) = es <->
       length es = 20%nat \/ ~ entry_plain (read_entry (last_sector disk kernel) (0x7e00 + 20 * N.of_nat (length es)))).
Proof. exact chain_right. Qed.
Print Assumptions C87_map.
Example C87_map_example : firmware one_bios one_map some_info /\ floppy stale_disk loader_file FatExamples.demo_name loader_clusters kernel_clusters some_vars demo_layout /\
  exists l, length l = 18%nat /\ stale_entries (last_sector stale_disk kernel_clusters) 2 l.
Proof. exact (conj one_firmware (conj (two_floppy range_bytes) stale_run)). Qed.

(** C87: "the map main reads is always the firmware's" is false: two ranges become twenty. *)
Theorem C87_map_refuted : exists disk loader_name kernel_name loader kernel vars L b es info noise fuel m0 cpuid ret m s s',
  floppy disk loader_name kernel_name loader kernel vars L /\ firmware b es info /\ quiet vars noise /\ has_long_mode cpuid = true /\
  load_all fuel disk loader_name kernel_name b info noise m0 = Ok (Some m) /\ mem s = m /\ real_mode L s /\
  boot L cpuid ret s = Go (Main s') /\ length es = 2%nat /\ length (fst (e820_init (mem s'))) = 20%nat.
Proof. exact stale_refuted. Qed.
Print Assumptions C87_map_refuted.

(** C87: the boot messages then give the number of the firmware's ranges and the usable megabytes. *)
Theorem C87_report : forall disk loader_name kernel_name loader kernel vars L b es info noise fuel m0 cpuid ret,
  floppy disk loader_name kernel_name loader kernel vars L -> firmware b es info -> quiet vars noise -> (2847 <= fuel)%nat ->
  has_long_mode cpuid = true -> stale_entries (last_sector disk kernel) (length es) [] -> usable_total es < 2 ^ 64 ->
  exists m, load_all fuel disk loader_name kernel_name b info noise m0 = Ok (Some m) /\
    forall s, mem s = m -> real_mode L s -> exists s', boot L cpuid ret s = Go (Main s') /\
      forall strings buf pde k, 0 < buf -> buf + 1024 < 2 ^ 64 -> ConsoleSpec.ready strings buf (k_mem k) -> pde < 2 ^ 64 ->
      exists lines k', boot_report (N.of_nat (length es)) (usable_total es / 2 ^ 20) pde lines /\
        let (entries, available) := e820_init (mem s') in
        boot_prints buf (N.of_nat (length entries)) available pde k = Ok k' /\
        shows_lines font (k_screen k) 0 lines (k_screen k').
Proof. exact chain_shown. Qed.
Print Assumptions C87_report.
Example C87_report_example : ConsoleSpec.ready demo_strings 100 (k_mem demo_kernel) /\ usable_total one_map < 2 ^ 64 /\ usable_total one_map / 2 ^ 20 = 511.
Proof. exact (conj demo_ready (conj eq_refl eq_refl)). Qed.
