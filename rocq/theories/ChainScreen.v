(** The boot report that main prints after the way from the floppy. *)
From Coq Require Import ZArith String Ascii.
From stdpp Require Import gmap list.
From Coq Require Import NArith Lia ZifyBool ZifyNat ZifyN.
From Verif Require Import Base PagingModel SwitchModel SwitchSpec E820Model E820Spec StageModel StageSpec ChainModel ChainSpec ChainProofs
  VesaModel VesaSpec ConsoleModel ConsoleSpec ConsoleFault.
Local Open Scope N_scope.

Lemma chain_shown disk loader_name kernel_name loader kernel vars L b es info noise fuel m0 cpuid ret :
  floppy disk loader_name kernel_name loader kernel vars L -> firmware b es info -> quiet vars noise -> (2847 <= fuel)%nat ->
  has_long_mode cpuid = true -> stale_entries (last_sector disk kernel) (length es) [] -> usable_total es < 2 ^ 64 ->
  exists m, load_all fuel disk loader_name kernel_name b info noise m0 = Ok (Some m) /\
    forall s, mem s = m -> real_mode L s -> exists s', boot L cpuid ret s = Go (Main s') /\
      forall strings buf pde k, 0 < buf -> buf + 1024 < 2 ^ 64 -> ConsoleSpec.ready strings buf (k_mem k) -> pde < 2 ^ 64 ->
      exists lines k', boot_report (N.of_nat (length es)) (usable_total es / 2 ^ 20) pde lines /\
        let (entries, available) := e820_init (mem s') in
        boot_prints buf (N.of_nat (length entries)) available pde k = Ok k' /\
        shows_lines font (k_screen k) 0 lines (k_screen k').
Proof.
  intros Hd Hw Hq Hf Hc St Hu.
  destruct (chain_all disk loader_name kernel_name loader kernel vars L b es info noise fuel m0 cpuid ret Hd Hw Hq Hf Hc) as (m & E & H).
  exists m. split; [exact E|]. intros s Hs Hr. destruct (H s Hs Hr) as (s' & Eb & _ & stale & Ei & St'). exists s'. split; [exact Eb|].
  rewrite (stale_unique _ _ _ St _ St') in Ei. rewrite app_nil_r, N.mod_small in Ei by exact Hu.
  intros strings buf pde k B1 B2 Rk Hp. pose proof (boot_shown strings buf (mem s') pde k B1 B2 Rk Hp) as X. rewrite Ei in *.
  destruct X as (lines & k' & R & P & S). exists lines, k'. auto.
Qed.
