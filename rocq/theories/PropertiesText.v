(** C104: the text screen while the machine starts. The full statement is the one of [C104_screen_partial] for every BIOS, with any [paged] and any
    pair cs:ip that denotes 7C00h; it is false ([C104_paged_refuted], [C104_entry_refuted]). *)
From Coq Require Import NArith Bool List String.
From Verif Require Import TextModel TextSpec TextProofs.
Local Open Scope N_scope.

Theorem C104_screen_partial : forall (m : mem) (a1 a2 : N) (L : labels) (sectors : option nat) (w : answers) (s : text),
  boot_loaded m a1 a2 -> loader_loaded m L -> fits sectors ->
  looks (fst (start_up false m 0 a1 a2 L sectors w s)) (line sectors w) /\
  snd (start_up false m 0 a1 a2 L sectors w s) = match sectors with Some _ => has_kernel w && has_map w && has_svga w | None => false end.
Proof. exact screen. Qed.
Print Assumptions C104_screen_partial.
Example C104_screen_case : looks (fst (start_up false demo 0 0x7d00 0x7d20 demo_labels (Some 70%nat) all_well dark)) (line (Some 70%nat) all_well) /\
  line (Some 70%nat) all_well 1 = dots 6 /\ line (Some 70%nat) all_well 12 = in_attr 0x0f "Get SVGA info successful"%string.
Proof. split; [exact (proj1 (C104_screen_partial demo 0x7d00 0x7d20 demo_labels (Some 70%nat) all_well dark demo_boot demo_loader ltac:(cbn; repeat constructor)))|]. split; reflexivity. Qed.

Theorem C104_paged : forall (m : mem) (a1 a2 : N) (L : labels) (n : nat) (w : answers) (s : text),
  boot_loaded m a1 a2 -> loader_loaded m L -> (1 <= n <= 128)%nat ->
  looks (fst (start_up true m 0 a1 a2 L (Some n) w s)) (line_with 1 w).
Proof. exact screen_paged. Qed.
Print Assumptions C104_paged.
Example C104_paged_case : looks (fst (start_up true demo 0 0x7d00 0x7d20 demo_labels (Some 9%nat) all_well dark)) (line_with 1 all_well).
Proof. exact (C104_paged demo 0x7d00 0x7d20 demo_labels 9 all_well dark demo_boot demo_loader ltac:(split; repeat constructor)). Qed.

Theorem C104_paged_refuted : exists m a1 a2 L n w s, boot_loaded m a1 a2 /\ loader_loaded m L /\ (n <= 144)%nat /\
  ~ looks (fst (start_up true m 0 a1 a2 L (Some n) w s)) (line (Some n) w).
Proof. exact paged_refuted. Qed.
Print Assumptions C104_paged_refuted.

Theorem C104_entry_refuted : exists m a1 a2 L n w s, boot_loaded m a1 a2 /\ loader_loaded m L /\ (n <= 144)%nat /\
  ~ looks (fst (start_up false m 0x7c0 a1 a2 L (Some n) w s)) (line (Some n) w).
Proof. exact entry_refuted. Qed.
Print Assumptions C104_entry_refuted.
