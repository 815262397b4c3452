(** A concrete machine for the theorems about the way into long mode. *)
From stdpp Require Import list.
From Coq Require Import NArith Lia ZifyBool ZifyNat ZifyN.
From Verif Require Import PagingModel PagingSpec PagingProofs SwitchModel SwitchSpec SwitchProofs SwitchThms.
Local Open Scope N_scope.

Definition demo_layout : layout := {|
  l_gdt32ptr := 0x10058; l_gdt32 := 0x10040; l_gdt64ptr := 0x10080; l_gdt64 := 0x10068; l_tail := 0x10400; l_protect := 0x10420;
  k_gdtptr := 0x9088; k_gdt := 0x9000; k_idtptr := 0xa098; k_idt := 0x9098; k_switchseg := 0x50; k_entry64 := 0x58;
  k_startkernel := 0x80; k_main := 0x5000 |}.
(** quantities in memory: address, bytes, value; every other byte is 0xcc *)
Definition demo_words : list (N * N * N) :=
  [(0x10058, 2, 23); (0x1005a, 4, 0x10040); (0x10048, 8, 0x00CF9A000000FFFF); (0x10050, 8, 0x00CF92000000FFFF);
   (0x10080, 2, 23); (0x10082, 4, 0x10068); (0x10070, 8, 0x0020980000000000); (0x10078, 8, 0x0000920000000000);
   (0x109088, 2, 135); (0x10908a, 8, 0xffff800000109000); (0x10a098, 2, 4095); (0x10a09a, 8, 0xffff800000109098);
   (0x109008, 8, 0x0020980000000000); (0x109010, 8, 0x0000920000000000);
   (0x100050, 8, 0xffff800000100058); (0x100080, 8, 0xffff800000105000)].
Fixpoint find_byte (ws : list (N * N * N)) (a : N) : N :=
  match ws with
  | [] => 0xcc
  | (b, n, v) :: ws => if (b <=? a) && (a <? b + n) then v / 256 ^ (a - b) mod 256 else find_byte ws a
  end.
Definition demo_mem (a : N) : N :=
  if (0x101000 <=? a) && (a <? 0x102000) then PML4 ((a - 0x101000) / 8) / 256 ^ ((a - 0x101000) mod 8) mod 256
  else if (0x102000 <=? a) && (a <? 0x103000) then PDPTE ((a - 0x102000) / 8) / 256 ^ ((a - 0x102000) mod 8) mod 256
  else if (0x103000 <=? a) && (a <? 0x104000) then PDE ((a - 0x103000) / 8) / 256 ^ ((a - 0x103000) mod 8) mod 256
  else find_byte demo_words a.
Definition real_seg (v : N) : seg := Seg v (16 * v) 0xffff 0x0000930000000000.
(** as a BIOS leaves it: cache enabled, interrupts on, garbage in the rest *)
Definition demo_cpu : cpu :=
  Cpu demo_mem 0x10 0x12345000 0 0 0x004f 0xbeef 0x3f2 0x7bf0 0x400 (real_seg 0x1000)
    (fun r => match r with DS => real_seg 0x1000 | _ => real_seg 0 end) (0xf0000, 0x30) (0, 0x3ff) true.
Definition demo_cpuid (leaf : N) : N * N := if leaf =? 0x80000000 then (0x80000008, 0) else (0x663, 0x2c100800).
Definition old_cpuid (leaf : N) : N * N := if leaf =? 0x80000000 then (0x80000004, 0) else (0x663, 0x00100800).

Lemma demo_layout_ok : layout_ok demo_layout.
Proof. split; vm_compute; repeat split; discriminate. Qed.
Lemma cases8 (P : N -> Prop) : P 0 -> P 1 -> P 2 -> P 3 -> P 4 -> P 5 -> P 6 -> P 7 -> forall i, i < 8 -> P i.
Proof.
  intros. assert (i = 0 \/ i = 1 \/ i = 2 \/ i = 3 \/ i = 4 \/ i = 5 \/ i = 6 \/ i = 7) as X by lia.
  repeat (destruct X as [-> | X]; [assumption|]). subst. assumption.
Qed.
Lemma cases4 (P : N -> Prop) : P 0 -> P 1 -> P 2 -> P 3 -> forall i, i < 4 -> P i.
Proof.
  intros. assert (i = 0 \/ i = 1 \/ i = 2 \/ i = 3) as X by lia.
  repeat (destruct X as [-> | X]; [assumption|]). subst. assumption.
Qed.
Lemma cases2 (P : N -> Prop) : P 0 -> P 1 -> forall i, i < 2 -> P i.
Proof. intros. assert (i = 0 \/ i = 1) as X by lia. destruct X as [-> | ->]; assumption. Qed.
Lemma demo_loader_in : loader_in demo_layout (mem demo_cpu).
Proof. split; unfold holds_at; first [apply cases2|apply cases4|apply cases8]; reflexivity. Qed.
Lemma demo_kernel_in : kernel_in demo_layout (mem demo_cpu).
Proof.
  split.
  1-3: intros i Hi j Hj; cbn [demo_cpu mem]; unfold demo_mem.
  - replace ((0x101000 <=? 0x101000 + 8 * i + j) && (0x101000 + 8 * i + j <? 0x102000)) with true by lia.
    replace ((0x101000 + 8 * i + j - 0x101000) / 8) with i by (apply (N.div_unique _ 8 i j); lia).
    replace ((0x101000 + 8 * i + j - 0x101000) mod 8) with j by (apply (N.mod_unique _ 8 i j); lia). reflexivity.
  - replace ((0x101000 <=? 0x102000 + 8 * i + j) && (0x102000 + 8 * i + j <? 0x102000)) with false by lia.
    replace ((0x102000 <=? 0x102000 + 8 * i + j) && (0x102000 + 8 * i + j <? 0x103000)) with true by lia.
    replace ((0x102000 + 8 * i + j - 0x102000) / 8) with i by (apply (N.div_unique _ 8 i j); lia).
    replace ((0x102000 + 8 * i + j - 0x102000) mod 8) with j by (apply (N.mod_unique _ 8 i j); lia). reflexivity.
  - replace ((0x101000 <=? 0x103000 + 8 * i + j) && (0x103000 + 8 * i + j <? 0x102000)) with false by lia.
    replace ((0x102000 <=? 0x103000 + 8 * i + j) && (0x103000 + 8 * i + j <? 0x103000)) with false by lia.
    replace ((0x103000 <=? 0x103000 + 8 * i + j) && (0x103000 + 8 * i + j <? 0x104000)) with true by lia.
    replace ((0x103000 + 8 * i + j - 0x103000) / 8) with i by (apply (N.div_unique _ 8 i j); lia).
    replace ((0x103000 + 8 * i + j - 0x103000) mod 8) with j by (apply (N.mod_unique _ 8 i j); lia). reflexivity.
  - unfold holds_at. apply cases2; reflexivity.
  - unfold holds_at. apply cases8; reflexivity.
  - unfold holds_at. apply cases2; reflexivity.
  - unfold holds_at. apply cases8; reflexivity.
  - unfold holds_at. apply cases8; reflexivity.
  - unfold holds_at. apply cases8; reflexivity.
  - unfold holds_at. apply cases8; reflexivity.
  - unfold holds_at. apply cases8; reflexivity.
Qed.
Lemma demo_real_mode : real_mode demo_layout demo_cpu.
Proof. split; try reflexivity; try discriminate; repeat split. Qed.
Lemma demo_boots : exists s', boot demo_layout demo_cpuid 0x10428 demo_cpu = Go (Main s') /\ ready demo_layout demo_cpu s'.
Proof. apply boot_main; [apply demo_layout_ok|apply demo_loader_in|apply demo_kernel_in|apply demo_real_mode|reflexivity]. Qed.
(** the same run, computed *)
Definition shown (r : res arrival) : option (list N) :=
  match r with
  | Go (Main s) => Some [cr0 s; cr3 s; cr4 s; efer s; rsp s; rip s; sel (cs s); sel (sr s FS); fst (gdtr s); mem s 0x92010; mem s 0x92012]
  | Go (NoLongMode s) => Some [cr0 s; rsp s]
  | Stop _ => None
  end.
Lemma demo_run : shown (boot demo_layout demo_cpuid 0x10428 demo_cpu) =
  Some [0x80010011; 0x101000; 0x20; 0x500; 0xffff800000007e00; 0xffff800000105000; 8; 16; 0xffff800000109000; 0x83; 0x40].
Proof. vm_compute. reflexivity. Qed.
Lemma old_run : shown (boot demo_layout old_cpuid 0x10428 demo_cpu) = Some [0x11; 0x7e00].
Proof. vm_compute. reflexivity. Qed.
Lemma both_tables : exists m, temp_tables m /\ boot_tables m /\ window_offset 0xffff800000100058 = Some 0x100058.
Proof. destruct demo_boots as (s' & _ & R). exists (mem s'). split; [apply R|]. split; [apply R|reflexivity]. Qed.
