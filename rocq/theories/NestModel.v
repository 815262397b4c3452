(** The stack under interrupts and system calls: the stubs of kernel/src/core/irqs.s and syscall.s with the macros of store_ctx.s,
    the guard in _irq_handler (kernel/src/core/interrupt.cpp:244-255, kernel/include/core/interrupt.hpp:123-134,
    kernel/include/core/arch.hpp:19-26), Enable and Disable (interrupt.cpp:171-177).
    All instructions but those that concern rsp, IF or the way back are left out.  One processor, one stack: the kernel has no task
    state segment with other stacks and no user programs.  Stack addresses are unbounded integers. *)
From Coq Require Import ZArith Bool List.
From Verif Require Import Base.
Import ListNotations.
Local Open Scope outcome_scope.
Local Open Scope Z_scope.

Inductive ins :=
| Move (d : Z)    (* rsp changes by d: push, pop, call, ret, add rsp, sub rsp *)
| Cli | Sti       (* interrupt.cpp:171-177, irqs.s:8, 42, syscall.s:7 *)
| Save            (* the guard keeps rflags: arch.hpp:20 *)
| Restore         (* the guard gives them back: arch.hpp:25 *)
| Sys (n : nat)   (* int 50 + n *)
| Iretq.          (* irqs.s:43, syscall.s:42 *)

(** What is interrupted; [f_hw]: by a device, not by [Sys]. *)
Record frame := { f_rsp : Z; f_if : bool; f_guards : list bool; f_code : list ins; f_hw : bool }.
(** [shadow]: the next instruction is shielded by a sti before it; [guards]: what the running code's guards have kept, the latest
    first; [frames]: the latest first; [low]: the lowest rsp so far; [taken]: the interrupts so far, by line. *)
Record cpu := { rsp : Z; ifl : bool; shadow : bool; guards : list bool; code : list ins; frames : list frame; low : Z; taken : list nat }.

Section Machine.
(** [shields]: does sti shield the next instruction, as the processor's manual says? *)
Variable shields : bool.
(** What _irq_handler does within its guard for the line, and what _syscall_handler does for the number. *)
Variable irq : nat -> list ins.
Variable sys : nat -> list ins.

(** store_ctx.s:21-39, 41-58 *)
Definition save_context : list ins := repeat (Move (-8)) 15.
(** as above, store_ctx.s:21-39, 41-58 *)
Definition restore_context : list ins := repeat (Move 8) 15.
(** store_ctx.s:3-11 *)
Definition restore_kernel_segments : list ins := [Move (-8); Move 8].
(** interrupt.cpp:244-255 *)
Definition irq_handler (n : nat) : list ins := Save :: Cli :: irq n ++ [Restore].
(** irqs.s:5-43: the call pushes and pops the return address *)
Definition irq_stub (n : nat) : list ins :=
  Cli :: Move (-8) :: save_context ++ restore_kernel_segments ++ Move (-8) :: irq_handler n ++ Move 8 :: restore_context ++ [Move 8; Sti; Iretq].
(** syscall.s:4-42 *)
Definition sys_stub (n : nat) : list ins :=
  Sti :: Move (-8) :: save_context ++ restore_kernel_segments ++ Move (-8) :: sys n ++ Move 8 :: restore_context ++ [Move 8; Iretq].

(** In 64-bit mode the processor aligns rsp, then pushes ss, rsp, rflags, cs and rip.  All gates are interrupt gates (C45): IF is
    cleared. *)
Definition aligned (r : Z) : Z := 16 * (r / 16).
(** processor: the frame of an interrupt *)
Definition frame_at (r : Z) : Z := aligned r - 40.
(** processor: the frame of an interrupt *)
Definition deliver (hw : bool) (target : list ins) (m : cpu) (rest : list ins) : cpu :=
  {| rsp := frame_at (rsp m); ifl := false; shadow := false; guards := []; code := target;
     frames := {| f_rsp := rsp m; f_if := ifl m; f_guards := guards m; f_code := rest; f_hw := hw |} :: frames m;
     low := Z.min (low m) (frame_at (rsp m)); taken := taken m |}.
(** Behind the last instruction of the outermost program comes the endless loop of main.cpp:47-49.  iretq from anywhere but the
    frame loads other words: [UB]. *)
Definition exec1 (m : cpu) : outcome cpu :=
  match code m with
  | [] => match frames m with [] => Ok {| rsp := rsp m; ifl := ifl m; shadow := false; guards := guards m; code := []; frames := []; low := low m; taken := taken m |} | _ => UB end
  | Move d :: c =>
      Ok {| rsp := rsp m + d; ifl := ifl m; shadow := false; guards := guards m; code := c; frames := frames m;
            low := Z.min (low m) (rsp m + d); taken := taken m |}
  | Cli :: c =>
      Ok {| rsp := rsp m; ifl := false; shadow := false; guards := guards m; code := c; frames := frames m; low := low m; taken := taken m |}
  | Sti :: c =>
      Ok {| rsp := rsp m; ifl := true; shadow := shields && negb (ifl m); guards := guards m; code := c; frames := frames m;
            low := low m; taken := taken m |}
  | Save :: c =>
      Ok {| rsp := rsp m; ifl := ifl m; shadow := false; guards := ifl m :: guards m; code := c; frames := frames m; low := low m; taken := taken m |}
  | Restore :: c =>
      match guards m with
      | [] => UB
      | b :: g =>
          Ok {| rsp := rsp m; ifl := b; shadow := false; guards := g; code := c; frames := frames m; low := low m; taken := taken m |}
      end
  | Sys n :: c => Ok (deliver false (sys_stub n) m c)
  | Iretq :: c =>
      match frames m with
      | [] => UB
      | f :: fs =>
          if rsp m =? frame_at (f_rsp f) then
            Ok {| rsp := f_rsp f; ifl := f_if f; shadow := false; guards := f_guards f; code := f_code f; frames := fs;
                  low := low m; taken := taken m |}
          else UB
      end
  end.
(** An interrupt of line [n] is raised; it is lost while IF is clear or the instruction shielded. *)
Definition interrupt (n : nat) (m : cpu) : cpu :=
  if ifl m && negb (shadow m) then
    let m' := deliver true (irq_stub n) m (code m) in
    {| rsp := rsp m'; ifl := ifl m'; shadow := shadow m'; guards := guards m'; code := code m'; frames := frames m'; low := low m';
       taken := taken m ++ [n] |}
  else m.
(** [None]: the processor executes an instruction; [Some n]: line [n] is raised. *)
Fixpoint run (sched : list (option nat)) (m : cpu) : outcome cpu :=
  match sched with
  | [] => Ok m
  | None :: sched => m <~ exec1 m; run sched m
  | Some n :: sched => run sched (interrupt n m)
  end.
(** model only: the state before anything happens *)
Definition start (s : Z) (fl : bool) (p : list ins) : cpu :=
  {| rsp := s; ifl := fl; shadow := false; guards := []; code := p; frames := []; low := s; taken := [] |}.
End Machine.
