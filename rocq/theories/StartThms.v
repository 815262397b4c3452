(** Memory at the entry of main. *)
From stdpp Require Import list.
From Coq Require Import NArith Lia ZifyBool ZifyNat ZifyN.
From Verif Require Import PagingModel SwitchModel SwitchSpec SwitchProofs SwitchThms SwitchExamples StartModel StartSpec StartProofs.
Local Open Scope N_scope.

Theorem image_kept L cpuid ret s : layout_ok L -> loader_in L (mem s) -> kernel_in L (mem s) -> real_mode L s -> has_long_mode cpuid = true ->
  exists s', boot L cpuid ret s = Go (Main s') /\ forall a, 0x93000 <= a -> mem s' a = mem s a.
Proof.
  intros. destruct (boot_main L cpuid ret s) as (s' & E & R); try assumption. exists s'. split; [exact E|].
  intros a Ha. apply (rd_mem _ _ _ R); lia.
Qed.
Definition filled (g : N -> N) : cpu := with_mem (fun a => if (0x110000 <=? a) && (a <? 0x120000) then g a else demo_mem a) demo_cpu.
Lemma filled_kernel g : kernel_in demo_layout (mem (filled g)).
Proof.
  destruct demo_kernel_in as [a1 a2 a3 a4 a5 a6 a7 a8 a9 a10 a11].
  assert (F : forall a n v, a + n <= 0x110000 -> holds_at demo_mem a n v -> holds_at (mem (filled g)) a n v).
  { intros a n v H Hh. apply (holds_ext demo_mem); [exact Hh|]. intros i Hi. cbn [filled with_mem mem].
    replace ((0x110000 <=? a + i) && (a + i <? 0x120000)) with false by lia. reflexivity. }
  split; [intros i Hi; apply F; [lia|]; auto..| | | | | | | |]; (apply F; [vm_compute; discriminate|assumption]).
Qed.
Theorem statics_kept g : exists L cpuid ret s s', layout_ok L /\ loader_in L (mem s) /\ kernel_in L (mem s) /\ real_mode L s /\
  has_long_mode cpuid = true /\ boot L cpuid ret s = Go (Main s') /\ forall a, 0x110000 <= a < 0x120000 -> mem s' a = g a.
Proof.
  assert (loader_in demo_layout (mem (filled g))) as HL.
  { apply (loader_frame _ demo_mem); [apply demo_layout_ok|apply demo_loader_in|]. intros a Ha. cbn [filled with_mem mem].
    replace ((0x110000 <=? a) && (a <? 0x120000)) with false by lia. reflexivity. }
  assert (real_mode demo_layout (filled g)) as HR.
  { destruct demo_real_mode. split; assumption. }
  destruct (image_kept demo_layout demo_cpuid 0x10428 (filled g) demo_layout_ok HL (filled_kernel g) HR eq_refl) as (s' & E & K).
  exists demo_layout, demo_cpuid, 0x10428, (filled g), s'.
  split; [apply demo_layout_ok|]. split; [exact HL|]. split; [apply filled_kernel|]. split; [exact HR|].
  split; [reflexivity|]. split; [exact E|]. intros a Ha. rewrite K by lia. cbn [filled with_mem mem].
  replace ((0x110000 <=? a) && (a <? 0x120000)) with true by lia. reflexivity.
Qed.
(** cases for the examples *)
Lemma demo_machine : exists s, boot_tables (m_mem s) /\ tlb_ok s.
Proof.
  destruct demo_boots as (s' & _ & R). exists {| m_mem := mem s'; m_tlb := fun _ => None |}. split; [apply R|].
  intros va p _ H. discriminate.
Qed.
Definition three_ctors := link_data [{| p_align := 4; p_bytes := [1; 2; 3; 4] |}; {| p_align := 2; p_bytes := [5; 6; 7; 8] |}]
  [[0xffff800000100100]; [0xffff800000100200]] [[0xffff800000100300]] 0xffff800000109000 (fun _ => 0xcc).
Definition odd_ctors := link_data [{| p_align := 4; p_bytes := [1; 2; 3; 4] |}; {| p_align := 2; p_bytes := [5; 6] |}]
  [[0xffff800000100100]; [0xffff800000100200]] [] 0xffff800000109000 (fun _ => 0xcc).
Definition in_text (f : N) : bool := (0xffff800000100000 <=? f) && (f <? 0xffff800000109000).
Lemma three_run : fst (fst three_ctors) mod 8 = 0 /\ run_ctors 10 in_text (snd three_ctors) (fst (fst three_ctors)) (snd (fst three_ctors)) =
  Base.Ok [0xffff800000100100; 0xffff800000100200; 0xffff800000100300].
Proof. vm_compute. split; reflexivity. Qed.
Lemma odd_run : fst (fst odd_ctors) = 0xffff800000109006 /\
  run_ctors 10 in_text (snd odd_ctors) (fst (fst odd_ctors)) (snd (fst odd_ctors)) = Base.UB.
Proof. vm_compute. split; reflexivity. Qed.
