(** What the interrupted program and the C++ handlers see. *)
From stdpp Require Import list.
From Coq Require Import ZArith.
From Verif Require Import StubModel.
Local Open Scope Z_scope.

(** struct syscall_regs (interrupt.hpp:51-73): field number i is the word at byte 8*i. *)
Inductive sfield :=
  S_rax | S_rbx | S_rcx | S_rdx | S_rsi | S_rdi | S_r8 | S_r9 | S_r10 | S_r11 | S_r12 | S_r13 | S_r14 | S_r15
| S_rbp | S_code | S_rip | S_cs | S_rflags | S_rsp | S_ss.
Definition sfield_index (f : sfield) : Z :=
  match f with
  | S_rax => 0 | S_rbx => 1 | S_rcx => 2 | S_rdx => 3 | S_rsi => 4 | S_rdi => 5 | S_r8 => 6 | S_r9 => 7
  | S_r10 => 8 | S_r11 => 9 | S_r12 => 10 | S_r13 => 11 | S_r14 => 12 | S_r15 => 13 | S_rbp => 14
  | S_code => 15 | S_rip => 16 | S_cs => 17 | S_rflags => 18 | S_rsp => 19 | S_ss => 20
  end.
Definition read_sfield (m : machine) (p : Z) (f : sfield) : Z := mem m (p + 8 * sfield_index f).
Definition sfield_of_reg (r : reg) : sfield :=
  match r with
  | RAX => S_rax | RBX => S_rbx | RCX => S_rcx | RDX => S_rdx | RSI => S_rsi | RDI => S_rdi | R8 => S_r8
  | R9 => S_r9 | R10 => S_r10 | R11 => S_r11 | R12 => S_r12 | R13 => S_r13 | R14 => S_r14 | R15 => S_r15
  | RBP => S_rbp
  end.

(** struct fault_regs (interrupt.hpp:40-49), passed by value on the stack. *)
Inductive ffield := F_rbp | F_error_no | F_error_code | F_rip | F_cs | F_rflags | F_rsp | F_ss.
Definition ffield_index (f : ffield) : Z :=
  match f with
  | F_rbp => 0 | F_error_no => 1 | F_error_code => 2 | F_rip => 3 | F_cs => 4 | F_rflags => 5 | F_rsp => 6
  | F_ss => 7
  end.
Definition read_ffield (m : machine) (p : Z) (f : ffield) : Z := mem m (p + 8 * ffield_index f).

(** A C++ function called by the System V convention, as far as the stubs rely on it: it returns
    with its return address popped, and it writes no memory at or above its return address
    outside the record of 21 words it is given a pointer to. *)
Definition sysv_handler (h : machine -> machine) : Prop :=
  forall m, rsp (h m) = rsp m + 8 /\
            forall a, rsp m + 8 <= a -> ~ (regs m RDI <= a < regs m RDI + 168) -> mem (h m) a = mem m a.

(** Vectors for which the processor pushes an error code (Intel SDM vol. 3, table 6-1; AMD64
    manual vol. 2, table 8-1 for 29 and 30). *)
Definition cpu_pushes_code (v : Z) : bool :=
  existsb (Z.eqb v) [8; 10; 11; 12; 13; 14; 17; 21; 29; 30].

(** System V: at a call instruction the stack pointer is a multiple of 16. *)
Definition abi_aligned (m : machine) : Prop := rsp m mod 16 = 0.

(** The record at the call. *)
Definition saved_field (m : machine) (n : Z) (f : sfield) : Z :=
  match f with
  | S_rax => regs m RAX | S_rbx => regs m RBX | S_rcx => regs m RCX | S_rdx => regs m RDX
  | S_rsi => regs m RSI | S_rdi => regs m RDI | S_r8 => regs m R8 | S_r9 => regs m R9
  | S_r10 => regs m R10 | S_r11 => regs m R11 | S_r12 => regs m R12 | S_r13 => regs m R13
  | S_r14 => regs m R14 | S_r15 => regs m R15 | S_rbp => regs m RBP
  | S_code => n | S_rip => rip m | S_cs => cs m | S_rflags => rflags m | S_rsp => rsp m | S_ss => ss m
  end.

(** A handler that leaves its record alone. *)
Definition keeps_record (h : machine -> machine) : Prop :=
  forall m a, regs m RDI <= a < regs m RDI + 168 -> mem (h m) a = mem m a.
