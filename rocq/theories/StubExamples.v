(** Composite lemmas and concrete cases for the interrupt path. *)
From stdpp Require Import gmap list.
From Coq Require Import NArith ZArith Lia ZifyBool ZifyNat ZifyN.
From Verif Require Import Base GateModel GateSpec GateProofs StubModel StubSpec StubProofs.
Local Open Scope N_scope.

Lemma irq_path (s0 s : pics) n isr irq sys old os h ra top tgt c m :
  n < 16 ->
  p_base (master s) = p_base (master (remap_irqs s0)) ->
  p_base (slave s) = p_base (slave (remap_irqs s0)) ->
  can_deliver n s ->
  (forall n, isr n < 2 ^ 64) -> (forall n, irq n < 2 ^ 64) -> (forall n, sys n < 2 ^ 64) ->
  Forall op_nonnull os ->
  snd (pic_ack n s) = 32 + n /\
  (exists g, idt_after_init isr irq sys old !! N.to_nat (32 + n) = Some g /\
             decode_gate (gate_bits g) = kernel_gate (irq n) 0) /\
  (let at_call := exec_list h ra (irq_entry (Z.of_N n)) (cpu_enter top tgt c None m) in
   read_sfield at_call (regs at_call RDI) S_code = Z.of_N n) /\
  trigger_irq (fst (irq_run irqs_init os)) n = Ok (fst (reg_spec_run (fun l => l <? 16) ∅ os) !! n) /\
  In (0x20, 0x20) (eoi_writes n) /\ (In (0xA0, 0x20) (eoi_writes n) <-> 8 <= n) /\
  send_eoi n (fst (pic_ack n s)) = s.
Proof.
  intros Hn Hb1 Hb2 Hd H1 H2 H3 Hrel.
  split; [exact (ack_vector n s0 s Hn Hb1 Hb2)|]. split.
  { destruct (idt_gates isr irq sys old (32 + n) H1 H2 H3) as (g & E & _ & G & _); [lia|].
    exists g. split; [exact E|]. rewrite G by lia. f_equal. f_equal. lia. }
  split.
  { destruct (entry_record h ra top tgt c (Z.of_N n) m (irq_entry (Z.of_N n)) (or_introl eq_refl))
      as (_ & E & F & _). cbv zeta. rewrite E. rewrite F. reflexivity. }
  split.
  { pose proof (irq_history os Hrel) as E. destruct (irq_run irqs_init os) as [t r].
    destruct (reg_spec_run _ ∅ os) as [σ e]. destruct E as [_ E]. exact (E n Hn). }
  split; [apply eoi_master|]. split; [apply eoi_slave|]. apply eoi_restores; assumption.
Qed.

Lemma path_example s0 : let s := fst (pic_ack 14 (remap_irqs s0)) in
  p_base (master s) = p_base (master (remap_irqs s0)) /\ p_base (slave s) = p_base (slave (remap_irqs s0)) /\
  can_deliver 1 s /\ p_isr (master s) = 4 /\ p_isr (slave s) = 64.
Proof.
  cbv zeta. rewrite remap_result. cbn. do 2 (split; [reflexivity|]). split.
  - unfold can_deliver, can_ack. cbn. intros i.
    destruct i as [|p]; [discriminate|]. destruct p; [discriminate|intros _; lia|discriminate].
  - split; reflexivity.
Qed.

Local Open Scope Z_scope.
Definition demo_machine : machine :=
  {| regs := fun r => match r with RAX => 1 | RBX => 2 | RDI => 4000 | RBP => 4200 | _ => 9 end;
     rsp := 5000; rflags := 0x246; rip := 0x1234; cs := 0x2b; ss := 0x23; segs := fun _ => 0x23; mem := fun a => a |}.

(** A handler that overwrites every register and memory below its frame. *)
Definition clobber_handler (m : machine) : machine :=
  {| regs := fun _ => 0xdead; rsp := rsp m + 8; rflags := 0; rip := rip m; cs := cs m; ss := ss m;
     segs := segs m;
     mem := fun a => if (a <? rsp m) && negb ((regs m RDI <=? a) && (a <? regs m RDI + 168)) then 0 else mem m a |}.
Lemma clobber_ok : sysv_handler clobber_handler /\ keeps_record clobber_handler /\
  regs (clobber_handler demo_machine) RAX <> regs demo_machine RAX.
Proof.
  split; [|split; [|discriminate]].
  - intros m. cbn. split; [reflexivity|]. intros a H1 H2.
    replace (a <? rsp m) with false by lia. reflexivity.
  - intros m a H. cbn. replace (regs m RDI <=? a) with true by lia.
    replace (a <? regs m RDI + 168) with true by lia. cbn [negb andb]. rewrite andb_false_r. reflexivity.
Qed.

(** A system call that returns 77 in rax. *)
Definition edit_handler (m : machine) : machine :=
  {| regs := fun _ => 5; rsp := rsp m + 8; rflags := 0; rip := rip m; cs := cs m; ss := ss m; segs := segs m;
     mem := fun a => if a =? regs m RDI then 77 else mem m a |}.

Lemma isr_frames h ra top t c v e m :
  0 <= v < 32 -> v <> 17 -> v <> 21 -> v <> 29 -> v <> 30 ->
  let code := if cpu_pushes_code v then Some e else None in
  let m1 := exec_list h ra (isr_entry v) (cpu_enter top t c code m) in
  let p := rsp m1 in
  read_ffield m1 p F_rbp = regs m RBP /\ read_ffield m1 p F_error_no = v /\
  read_ffield m1 p F_error_code = (if cpu_pushes_code v then e else 0) /\
  read_ffield m1 p F_rip = rip m /\ read_ffield m1 p F_cs = cs m /\ read_ffield m1 p F_rflags = rflags m /\
  read_ffield m1 p F_rsp = rsp m /\ read_ffield m1 p F_ss = ss m /\ p = top - 64.
Proof. intros Hv H1 H2 H3 H4. exact (isr_frame h ra top t c v e m (isr_codes_agree v Hv H1 H2 H3 H4)). Qed.

Lemma call_misaligned h ra top t c n m (entry : list instr) :
  entry = irq_entry n \/ entry = syscall_entry n ->
  top mod 16 = 0 ->
  ~ abi_aligned (exec_list h ra entry (cpu_enter top t c None m)).
Proof.
  intros He Ht Ha. pose proof (call_alignment h ra top t c n m entry He Ht) as E.
  unfold abi_aligned in Ha. rewrite Ha in E. discriminate.
Qed.

Lemma isr_aligned h ra top t c v e m :
  0 <= v < 32 -> v <> 17 -> v <> 21 -> v <> 29 -> v <> 30 -> top mod 16 = 0 ->
  abi_aligned (exec_list h ra (isr_entry v)
    (cpu_enter top t c (if cpu_pushes_code v then Some e else None) m)).
Proof.
  intros Hv H1 H2 H3 H4 Ht.
  destruct (isr_frames h ra top t c v e m Hv H1 H2 H3 H4) as (_ & _ & _ & _ & _ & _ & _ & _ & E).
  unfold abi_aligned. rewrite E. replace (top - 64) with (top + (-4) * 16) by lia.
  rewrite Z_mod_plus_full. exact Ht.
Qed.
