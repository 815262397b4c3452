(** C99 *)
From Coq Require Import ZArith Bool List.
From Verif Require Import Base NestModel NestSpec NestProofs NestDeep NestExamples.
Import ListNotations.
Local Open Scope Z_scope.

(** C99, full statement: whenever interrupts arrive, at most one is under way at a time, and the stack they need does not depend on
    their number.  Proved for handlers that neither enable interrupts nor make system calls; missing: the others, see below.
    [B] bytes are enough for the program and [D] for every handler; nothing goes wrong at any iretq. *)
Theorem C99_bounded_partial : forall irq sys D B p d g,
  (forall n, closed (irq n) /\ keeps_out (irq n) /\ room sys D (irq n)) -> (forall n, closed (sys n)) -> ends 0 0 p d g -> room sys B p ->
  forall s fl sched, exists m, run true irq sys sched (start s fl p) = Ok m /\ (depth m <= 1)%nat /\ s - B - stub_needs - D <= low m.
Proof. exact bounded. Qed.
Print Assumptions C99_bounded_partial.
Example C99_bounded_case : (forall n, closed (demo_irq n) /\ keeps_out (demo_irq n) /\ room demo_sys 24 (demo_irq n)) /\ (forall n, closed (demo_sys n)) /\
  ends 0 0 demo_main 0 0 /\ room demo_sys (32 + 8 + 2 * stub_needs) demo_main.
Proof. exact (conj demo_irqs (conj demo_syss (conj demo_ends demo_room))). Qed.
(** The bound is reached. *)
Example C99_sharp : exists sched, match run true demo_irq demo_sys sched (start 1039 true []) with
  Ok m => depth m = 1%nat /\ low m = 1039 - 0 - stub_needs - 24 | _ => False end.
Proof. exact sharp. Qed.

(** C99: if a handler enables interrupts (interrupt.cpp:171-174) and goes on for one instruction, any number of them can be under way and any
    stack is used up. *)
Theorem C99_enable_refuted : forall irq sys e pre x y d post,
  irq e = pre ++ Sti :: Move d :: post -> ends 0 0 pre x y -> (forall n, ~ In (Sys n) pre) -> x + d <= 0 ->
  forall s p n, exists sched m, run true irq sys sched (start s true p) = Ok m /\ depth m = n /\ low m <= s - 176 * Z.of_nat n.
Proof. exact enable_deep. Qed.
Print Assumptions C99_enable_refuted.
Example C99_enable_case : [Move (-24); Sti; Move (-8); Move 8; Move 24] = [Move (-24)] ++ Sti :: Move (-8) :: [Move 8; Move 24] /\
  ends 0 0 [Move (-24)] (-24) 0 /\ forall n, ~ In (Sys n) [Move (-24)].
Proof. exact demo_pre. Qed.

(** C99: so they can if a handler makes a system call: the stub of system calls enables interrupts (syscall.s:7) whatever its caller wants. *)
Theorem C99_syscall_refuted : forall irq sys e pre x y k post,
  irq e = pre ++ Sys k :: post -> ends 0 0 pre x y -> (forall n, ~ In (Sys n) pre) -> x <= 0 ->
  forall s p n, exists sched m, run true irq sys sched (start s true p) = Ok m /\ depth m = n /\ low m <= s - 224 * Z.of_nat n.
Proof. exact call_deep. Qed.
Print Assumptions C99_syscall_refuted.
Example C99_syscall_case : [Move (-24); Sys 1; Move 24] = [Move (-24)] ++ Sys 1 :: [Move 24].
Proof. exact demo_call. Qed.

(** C99: for the same reason a guard does not keep interrupts out while a system call is made within it. *)
Theorem C99_guard_refuted : forall irq sys e k s fl p,
  exists sched m f f', run true irq sys sched (start s fl (Save :: Cli :: Sys k :: Restore :: p)) = Ok m /\
  taken m = [e] /\ frames m = [f; f'] /\ f_hw f = true /\ f_code f' = Restore :: p /\ f_guards f' = [fl] /\ f_if f' = false.
Proof. exact guard_opened. Qed.
Print Assumptions C99_guard_refuted.

(** C99: the sti before iretq (irqs.s:42), which iretq makes needless, is harmless only because the processor shields the instruction after it. *)
Theorem C99_shield_needed : forall irq sys e, closed (irq e) -> (forall n, ~ In (Sys n) (irq e)) ->
  forall s p n, exists sched m, run false irq sys sched (start s true p) = Ok m /\ depth m = n /\ low m <= s - 40 * Z.of_nat n.
Proof. exact unshielded_deep. Qed.
Print Assumptions C99_shield_needed.
Example C99_shield_case : closed (demo_irq 0) /\ forall n, ~ In (Sys n) (demo_irq 0).
Proof. exact demo_quiet. Qed.
