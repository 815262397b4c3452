(** C46 for every history of registrations, the null handler included. *)
From stdpp Require Import gmap list.
From Coq Require Import NArith.
From Verif Require Import Base GateModel GateSpec GateNullSpec GateNull.
Local Open Scope N_scope.

(** C46. What every history of registrations for interrupt lines returns, and which handler each line then has: as
    specified, but that the null handler is accepted by every free line, which stays free. *)
Theorem C46_irq_exact : forall os,
  let '(t, results) := irq_run irqs_init os in let '(σ, expected) := null_run 16 ∅ os in
  results = expected /\ forall n, n < 16 -> trigger_irq t n = Ok (σ !! n).
Proof. exact irq_exact. Qed.
Print Assumptions C46_irq_exact.
Example C46_irq_exact_example : snd (irq_run irqs_init [Reg 3 0 7; Reg 3 0 8; Reg 3 5 9; Reg 3 0 1; Unreg 3 0; Unreg 3 5; Unreg 3 0; Unreg 16 0]) =
  [true; true; true; false; false; true; true; false].
Proof. vm_compute. reflexivity. Qed.

(** C46. The same for system calls. *)
Theorem C46_syscall_exact : forall os,
  let '(t, results) := sys_run syscalls_init os in let '(σ, expected) := null_run 10 ∅ (map drop_data os) in
  results = expected /\ forall n, n < 10 -> trigger_syscall t n = Ok (fst <$> σ !! n).
Proof. exact sys_exact. Qed.
Print Assumptions C46_syscall_exact.
Example C46_syscall_exact_example : snd (sys_run syscalls_init [Reg 9 0 0; Reg 9 5 0; Unreg 9 0; Unreg 9 5; Unreg 9 0; Reg 10 0 0]) =
  [true; true; false; true; true; false].
Proof. vm_compute. reflexivity. Qed.
