(** C45-C50, C59: interrupt tables, controllers, entry stubs, IrqGuard. *)
From stdpp Require Import gmap list.
From Coq Require Import NArith ZArith Lia.
From Verif Require Import Base GateModel GateSpec GateProofs StubModel StubSpec StubProofs StubExamples.
Local Open Scope N_scope.

(** C45: for all handler addresses and all 256 vectors the gate decodes as the processor reads it
    to the stub of that vector, whatever the table held; a vector without a stub keeps the gate it had.
    Missing: it should not be present, which needs a table that was zero. *)
Theorem C45_gates_partial : forall isr irq sys old v,
  (forall n, isr n < 2 ^ 64) -> (forall n, irq n < 2 ^ 64) -> (forall n, sys n < 2 ^ 64) ->
  v < 256 ->
  exists g, idt_after_init isr irq sys old !! N.to_nat v = Some g /\
  (v < 32 -> decode_gate (gate_bits g) = kernel_gate (isr v) 0) /\
  (32 <= v < 48 -> decode_gate (gate_bits g) = kernel_gate (irq (v - 32)) 0) /\
  (50 <= v < 60 -> decode_gate (gate_bits g) = kernel_gate (sys (v - 50)) 3) /\
  (v = 48 \/ v = 49 \/ 60 <= v -> g = old v).
Proof. exact idt_gates. Qed.
Print Assumptions C45_gates_partial.
Theorem C45_absent_partial : forall isr irq sys v, v < 256 -> v = 48 \/ v = 49 \/ 60 <= v ->
  exists g, idt_after_init isr irq sys (fun _ => gate0) !! N.to_nat v = Some g /\ d_present (decode_gate (gate_bits g)) = 0.
Proof. exact idt_zeroed. Qed.
Print Assumptions C45_absent_partial.
(** The table lies in .bss, which nobody clears (C72): such a vector may lead to any address, from any privilege. *)
Theorem C45_absent_refuted : forall isr irq sys v h, h < 2 ^ 64 -> v < 256 -> v = 48 \/ v = 49 \/ 60 <= v ->
  exists old g, idt_after_init isr irq sys old !! N.to_nat v = Some g /\ decode_gate (gate_bits g) = kernel_gate h 3.
Proof. exact idt_left. Qed.
Print Assumptions C45_absent_refuted.
Example C45_example :
  decode_gate (gate_bits (set_gate 0xffff800000123456 8 14 0 3 1)) = kernel_gate 0xffff800000123456 3 /\
  gate_bits (set_gate 0xffff800000123456 8 14 0 3 1) = 0xffff80000012ee0000083456.
Proof. vm_compute. split; reflexivity. Qed.

(** C46: every history of registrations with real (non-null) handlers gives the results of the
    specification, and every line dispatches to its current handler and data. *)
Theorem C46_irq_partial : forall os,
  Forall op_nonnull os ->
  let '(t, results) := irq_run irqs_init os in
  let '(σ, expected) := reg_spec_run (fun l => l <? 16) ∅ os in
  results = expected /\ forall n, n < 16 -> trigger_irq t n = Ok (σ !! n).
Proof. exact irq_history. Qed.
Print Assumptions C46_irq_partial.
Example C46_irq_example :
  Forall op_nonnull [Reg 3 0x1000 7; Reg 3 0x2000 8; Unreg 3 0x2000; Unreg 3 0x1000; Reg 3 0x2000 9; Reg 16 1 1] /\
  snd (irq_run irqs_init
    [Reg 3 0x1000 7; Reg 3 0x2000 8; Unreg 3 0x2000; Unreg 3 0x1000; Reg 3 0x2000 9; Reg 16 1 1]) =
  [true; false; false; true; true; false].
Proof. split; [repeat constructor; discriminate|vm_compute; reflexivity]. Qed.

Theorem C46_syscall_partial : forall os,
  Forall op_nonnull os ->
  let '(t, results) := sys_run syscalls_init os in
  let '(σ, expected) := reg_spec_run (fun l => l <? 10) ∅ (map drop_data os) in
  results = expected /\ forall n, n < 10 -> trigger_syscall t n = Ok (fst <$> σ !! n).
Proof. exact sys_history. Qed.
Print Assumptions C46_syscall_partial.
Example C46_syscall_example :
  (let '(t, r) := sys_run syscalls_init [Reg 9 5 0; Reg 9 6 0; Reg 10 6 0] in (r, trigger_syscall t 9)) =
  ([true; false; false], Ok (Some 5)).
Proof. vm_compute. reflexivity. Qed.

(** C46 fails for the null handler: a free line can be "unregistered", and registering null
    succeeds again and again. *)
Theorem C46_null_refuted : exists os,
  snd (irq_run irqs_init os) <> snd (reg_spec_run (fun l => l <? 16) ∅ os).
Proof. exists [Unreg 0 0]. vm_compute. discriminate. Qed.
Print Assumptions C46_null_refuted.

(** C47: from any controller state, after RemapIrqs line n is delivered at vector 32+n; that gate
    leads to the stub of n; the stub calls the handler function with n in the code field; with n
    the handler registered for n is dispatched; end-of-interrupt goes to the master always and to
    the slave exactly for n >= 8, and takes exactly this interrupt out of service. *)
Theorem C47_irq_path : forall (s0 s : pics) n isr irq sys old os h ra top tgt c m,
  n < 16 ->
  p_base (master s) = p_base (master (remap_irqs s0)) ->
  p_base (slave s) = p_base (slave (remap_irqs s0)) ->
  can_deliver n s ->
  (forall n, isr n < 2 ^ 64) -> (forall n, irq n < 2 ^ 64) -> (forall n, sys n < 2 ^ 64) ->
  Forall op_nonnull os ->
  snd (pic_ack n s) = 32 + n /\
  (exists g, idt_after_init isr irq sys old !! N.to_nat (32 + n) = Some g /\
             decode_gate (gate_bits g) = kernel_gate (irq n) 0) /\
  (let at_call := exec_list h ra (irq_entry (Z.of_N n)) (cpu_enter top tgt c None m) in
   read_sfield at_call (regs at_call RDI) S_code = Z.of_N n) /\
  trigger_irq (fst (irq_run irqs_init os)) n = Ok (fst (reg_spec_run (fun l => l <? 16) ∅ os) !! n) /\
  In (0x20, 0x20) (eoi_writes n) /\ (In (0xA0, 0x20) (eoi_writes n) <-> 8 <= n) /\
  send_eoi n (fst (pic_ack n s)) = s.
Proof. exact irq_path. Qed.
Print Assumptions C47_irq_path.
(** The hypotheses hold right after initialisation, and also while a lower-priority line is
    being served. *)
Example C47_example : forall s0, let s := fst (pic_ack 14 (remap_irqs s0)) in
  p_base (master s) = p_base (master (remap_irqs s0)) /\ p_base (slave s) = p_base (slave (remap_irqs s0)) /\
  can_deliver 1 s /\ p_isr (master s) = 4 /\ p_isr (slave s) = 64.
Proof. exact path_example. Qed.

(** C48: a handler that keeps the System V convention and does not write its record leaves the
    interrupted program exactly where it was: registers, stack pointer, rip, rflags, selectors and
    all memory above the interrupt frame. *)
Theorem C48_irq_preserves : forall h ra top t c n m stub,
  stub = irq_stub n \/ stub = syscall_stub n ->
  sysv_handler h -> keeps_record h ->
  let m1 := exec_list h ra stub (cpu_enter top t c None m) in
  (forall r, regs m1 r = regs m r) /\ rip m1 = rip m /\ cs m1 = cs m /\ rflags m1 = rflags m /\
  rsp m1 = rsp m /\ ss m1 = ss m /\ (forall a, (top <= a)%Z -> mem m1 a = mem m a).
Proof. exact irq_preserves. Qed.
Print Assumptions C48_irq_preserves.
Example C48_example : sysv_handler clobber_handler /\ keeps_record clobber_handler /\
  regs (clobber_handler demo_machine) RAX <> regs demo_machine RAX.
Proof. exact clobber_ok. Qed.

(** C48: the handler finds every register, the line and the interrupted rip, cs, rflags, rsp, ss
    in its field of the record that rdi points to. *)
Theorem C48_record : forall h ra top t c n m entry,
  entry = irq_entry n \/ entry = syscall_entry n ->
  let m1 := exec_list h ra entry (cpu_enter top t c None m) in
  rsp m1 = (top - 168)%Z /\ regs m1 RDI = (top - 168)%Z /\
  (forall f, read_sfield m1 (top - 168) f = saved_field m n f) /\
  (forall a, (top <= a)%Z -> mem m1 a = mem m a).
Proof. exact entry_record. Qed.
Print Assumptions C48_record.

(** C48: a system call resumes with exactly the record as the handler left it. *)
Theorem C48_syscall_edits : forall h ra top t c n m at_call returned p m1,
  sysv_handler h ->
  at_call = exec_list h ra (syscall_entry n) (cpu_enter top t c None m) ->
  returned = h (push ra at_call) ->
  p = regs at_call RDI ->
  m1 = exec_list h ra (syscall_stub n) (cpu_enter top t c None m) ->
  (forall r, regs m1 r = read_sfield returned p (sfield_of_reg r)) /\
  rip m1 = read_sfield returned p S_rip /\ cs m1 = read_sfield returned p S_cs /\
  rflags m1 = read_sfield returned p S_rflags /\ rsp m1 = read_sfield returned p S_rsp /\
  ss m1 = read_sfield returned p S_ss.
Proof. exact syscall_returns_record. Qed.
Print Assumptions C48_syscall_edits.
Example C48_edit_example :
  let m1 := exec_list edit_handler 0 (syscall_stub 3) (cpu_enter 4096 0 8 None demo_machine) in
  regs m1 RAX = 77%Z /\ regs m1 RBX = regs demo_machine RBX /\ rip m1 = rip demo_machine.
Proof. vm_compute. repeat split. Qed.

(** C48, interrupt flag inside: cleared for interrupts, set for system calls. *)
Theorem C48_handler_flag : forall h ra top t c n m,
  Z.testbit (rflags (exec_list h ra (irq_entry n) (cpu_enter top t c None m))) 9 = false /\
  Z.testbit (rflags (exec_list h ra (syscall_entry n) (cpu_enter top t c None m))) 9 = true.
Proof. exact entry_flags. Qed.
Print Assumptions C48_handler_flag.

(** The data segment registers are not part of the saved context: code that runs with other
    selectors resumes with the kernel's. *)
Theorem C48_segments_refuted : forall h ra top t c n m stub,
  stub = irq_stub n \/ stub = syscall_stub n ->
  (forall m, segs (h m) = segs m) ->
  let m1 := exec_list h ra stub (cpu_enter top t c None m) in
  segs m1 DS = 16%Z /\ segs m1 ES = 16%Z /\ segs m1 GS = 16%Z /\ segs m1 FS = segs m FS.
Proof. exact segs_after. Qed.
Print Assumptions C48_segments_refuted.

(** The stack below the interrupted stack pointer is overwritten, but the kernel is compiled with
    the red zone (no -mno-red-zone in its Makefile): the word 48 bytes below becomes n. *)
Theorem C48_red_zone_refuted : forall h ra n m t c,
  (rsp m mod 16 = 0)%Z ->
  mem (exec_list h ra (irq_entry n) (cpu_enter (same_stack_top m) t c None m)) (rsp m - 48) = n.
Proof. exact below_overwritten. Qed.
Print Assumptions C48_red_zone_refuted.

(** C49: the frame is right for all vectors but 17, 21, 29 and 30. *)
Theorem C49_frames_partial : forall h ra top t c v e m,
  (0 <= v < 32 -> v <> 17 -> v <> 21 -> v <> 29 -> v <> 30 ->
  let code := if cpu_pushes_code v then Some e else None in
  let m1 := exec_list h ra (isr_entry v) (cpu_enter top t c code m) in
  let p := rsp m1 in
  read_ffield m1 p F_rbp = regs m RBP /\ read_ffield m1 p F_error_no = v /\
  read_ffield m1 p F_error_code = (if cpu_pushes_code v then e else 0) /\
  read_ffield m1 p F_rip = rip m /\ read_ffield m1 p F_cs = cs m /\ read_ffield m1 p F_rflags = rflags m /\
  read_ffield m1 p F_rsp = rsp m /\ read_ffield m1 p F_ss = ss m /\ p = top - 64)%Z.
Proof. exact isr_frames. Qed.
Print Assumptions C49_frames_partial.
Example C49_example :
  let m1 := exec_list (fun m => m) 0 (isr_entry 14) (cpu_enter 4096 0 8 (Some 6%Z) demo_machine) in
  read_ffield m1 (rsp m1) F_error_code = 6%Z /\ read_ffield m1 (rsp m1) F_rip = rip demo_machine.
Proof. vm_compute. split; reflexivity. Qed.

(** For 17 (alignment check), 21 (control protection), 29 and 30 the processor pushes a code the
    stub does not expect: every field from error_code on is off by one. *)
Theorem C49_shifted_refuted : forall h ra top t c v e m,
  (v = 17 \/ v = 21 \/ v = 29 \/ v = 30)%Z ->
  let m1 := exec_list h ra (isr_entry v) (cpu_enter top t c (Some e) m) in
  let p := rsp m1 in
  read_ffield m1 p F_error_code = 0%Z /\ read_ffield m1 p F_rip = e /\ read_ffield m1 p F_cs = rip m /\
  read_ffield m1 p F_rflags = cs m /\ read_ffield m1 p F_rsp = rflags m /\ read_ffield m1 p F_ss = rsp m.
Proof. exact isr_shifted. Qed.
Print Assumptions C49_shifted_refuted.

(** The way back (isrs.s:61) drops two words instead of three: it would return to the error code. *)
Theorem C49_return_refuted : forall h ra top t c v e m,
  (0 <= v < 32 -> v <> 17 -> v <> 21 -> v <> 29 -> v <> 30 ->
  (forall x, rsp (h x) = rsp x + 8 /\ forall a, rsp x + 8 <= a -> mem (h x) a = mem x a) ->
  let code := if cpu_pushes_code v then Some e else None in
  rip (exec_list h ra (isr_entry v ++ [ICall] ++ isr_exit) (cpu_enter top t c code m)) =
  (if cpu_pushes_code v then e else 0))%Z.
Proof. exact isr_return_wrong. Qed.
Print Assumptions C49_return_refuted.

(** C50: the flags at the end of a guarded scope are those at its beginning. *)
Theorem C50_restores : forall fl body, fst (run_stmt fl (SGuard body)) = fl.
Proof. exact guard_restores. Qed.
Print Assumptions C50_restores.

(** C50: at every point inside a guard, however nested and whatever the initial flags, interrupts
    are disabled (unless the body itself executes sti). *)
Theorem C50_disabled : forall fl body,
  no_enable body = true -> Forall (fun f => enabled f = false) (snd (run_stmt fl (SGuard body))).
Proof. exact guard_disables. Qed.
Print Assumptions C50_disabled.
Example C50_example :
  let body := SSeq SSkip (SSeq (SGuard (SSeq SSkip SDisable)) SSkip) in
  no_enable body = true /\ snd (run_stmt 0x246 (SGuard body)) = [0x46; 0x46; 0x46] /\
  fst (run_stmt 0x246 (SGuard body)) = 0x246.
Proof. vm_compute. repeat split. Qed.

(** C59: the System V convention asks for a 16-byte aligned stack at a call; the interrupt and
    system-call stubs call their handlers 8 bytes off, in every state. *)
Theorem C59_alignment_refuted : forall h ra top t c n m entry,
  entry = irq_entry n \/ entry = syscall_entry n ->
  (top mod 16 = 0)%Z ->
  ~ abi_aligned (exec_list h ra entry (cpu_enter top t c None m)).
Proof. exact call_misaligned. Qed.
Print Assumptions C59_alignment_refuted.

(** C59 holds for the exception stubs. *)
Theorem C59_isr_alignment_partial : forall h ra top t c v e m,
  (0 <= v < 32 -> v <> 17 -> v <> 21 -> v <> 29 -> v <> 30 -> top mod 16 = 0 ->
  abi_aligned (exec_list h ra (isr_entry v)
    (cpu_enter top t c (if cpu_pushes_code v then Some e else None) m)))%Z.
Proof. exact isr_aligned. Qed.
Print Assumptions C59_isr_alignment_partial.
