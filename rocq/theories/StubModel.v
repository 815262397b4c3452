(** Model of the entry stubs kernel/src/core/{irqs,syscall,isrs,store_ctx}.s: an executor for the
    instructions they use.
    Simplifications: addresses are integers (the stack does not wrap around address 0); memory is
    addressed in 64-bit words at the byte address of their start and is only used at addresses of
    equal alignment; x87/SSE registers are not part of the state (the stubs do not touch them). *)
From stdpp Require Import list.
From Coq Require Import ZArith.
From Verif Require Import Base.
Local Open Scope Z_scope.

(** processor: registers, flags and stack *)
Inductive reg := RAX | RBX | RCX | RDX | RSI | RDI | R8 | R9 | R10 | R11 | R12 | R13 | R14 | R15 | RBP.
(** processor: registers, flags and stack *)
Inductive seg := DS | ES | FS | GS.
Global Instance reg_eq_dec : EqDecision reg. Proof. solve_decision. Defined.
Global Instance seg_eq_dec : EqDecision seg. Proof. solve_decision. Defined.

(** processor: registers, flags and stack *)
Record machine := {
  regs : reg -> Z; rsp : Z; rflags : Z; rip : Z; cs : Z; ss : Z; segs : seg -> Z; mem : Z -> Z }.

(** model only: update of one component of the state *)
Definition set_reg (r : reg) (v : Z) (m : machine) : machine :=
  {| regs := fun x => if decide (x = r) then v else regs m x; rsp := rsp m; rflags := rflags m; rip := rip m;
     cs := cs m; ss := ss m; segs := segs m; mem := mem m |}.
(** model only: update of one component of the state *)
Definition set_rsp (v : Z) (m : machine) : machine :=
  {| regs := regs m; rsp := v; rflags := rflags m; rip := rip m; cs := cs m; ss := ss m; segs := segs m; mem := mem m |}.
(** model only: update of one component of the state *)
Definition set_flags (v : Z) (m : machine) : machine :=
  {| regs := regs m; rsp := rsp m; rflags := v; rip := rip m; cs := cs m; ss := ss m; segs := segs m; mem := mem m |}.
(** model only: update of one component of the state *)
Definition set_seg (g : seg) (v : Z) (m : machine) : machine :=
  {| regs := regs m; rsp := rsp m; rflags := rflags m; rip := rip m; cs := cs m; ss := ss m;
     segs := fun x => if decide (x = g) then v else segs m x; mem := mem m |}.
(** processor: registers, flags and stack *)
Definition push (v : Z) (m : machine) : machine :=
  {| regs := regs m; rsp := rsp m - 8; rflags := rflags m; rip := rip m; cs := cs m; ss := ss m; segs := segs m;
     mem := fun a => if a =? rsp m - 8 then v else mem m a |}.

(** The instructions of the stubs.  [ICall]: the call of the C++ handler.  Jumps between the stub
    and its common tail are left out by writing the straight-line sequence. *)
Inductive instr :=
| ICli | ISti
| IPush (r : reg) | IPushImm (v : Z) | IPop (r : reg)
| IMovImm (r : reg) (v : Z) | IMovSeg (g : seg) (r : reg) | IMovRsp (r : reg)
| IAddRsp (v : Z) | ICall | IIretq.

(** processor: registers, flags and stack *)
Definition IF_mask : Z := 512.
(** processor: registers, flags and stack *)
Definition exec (handler : machine -> machine) (ret_addr : Z) (i : instr) (m : machine) : machine :=
  match i with
  | ICli => set_flags (Z.ldiff (rflags m) IF_mask) m
  | ISti => set_flags (Z.lor (rflags m) IF_mask) m
  | IPush r => push (regs m r) m
  | IPushImm v => push v m
  | IPop r => set_rsp (rsp m + 8) (set_reg r (mem m (rsp m)) m)
  | IMovImm r v => set_reg r v m
  | IMovSeg g r => set_seg g (regs m r mod 2 ^ 16) m
  | IMovRsp r => set_reg r (rsp m) m
  | IAddRsp v => set_rsp (rsp m + v) m
  | ICall => handler (push ret_addr m)
  | IIretq =>
      {| regs := regs m; rsp := mem m (rsp m + 24); rflags := mem m (rsp m + 16); rip := mem m (rsp m);
         cs := mem m (rsp m + 8); ss := mem m (rsp m + 32); segs := segs m; mem := mem m |}
  end.
(** model only: the operations of a program in order *)
Fixpoint exec_list (handler : machine -> machine) (ret_addr : Z) (is : list instr) (m : machine) : machine :=
  match is with [] => m | i :: is => exec_list handler ret_addr is (exec handler ret_addr i m) end.

(** store_ctx.s:21-39 *)
Definition save_context : list instr :=
  [IPush RBP; IPush R15; IPush R14; IPush R13; IPush R12; IPush R11; IPush R10; IPush R9; IPush R8;
   IPush RDI; IPush RSI; IPush RDX; IPush RCX; IPush RBX; IPush RAX].
(** store_ctx.s:41-58 *)
Definition restore_context : list instr :=
  [IPop RAX; IPop RBX; IPop RCX; IPop RDX; IPop RSI; IPop RDI; IPop R8; IPop R9; IPop R10; IPop R11;
   IPop R12; IPop R13; IPop R14; IPop R15; IPop RBP].
(** store_ctx.s:3-11 *)
Definition restore_kernel_segments : list instr :=
  [IPush RAX; IMovImm RAX 0x10; IMovSeg DS RAX; IMovSeg ES RAX; IMovSeg ES RAX; IMovSeg GS RAX; IPop RAX].

(** irqs.s:5-11, 31-37: up to and including the argument of the call *)
Definition irq_entry (n : Z) : list instr :=
  [ICli; IPushImm n] ++ save_context ++ restore_kernel_segments ++ [IMovRsp RDI].
(** irqs.s:39-43 *)
Definition irq_exit : list instr := restore_context ++ [IAddRsp 8; ISti; IIretq].
(** syscall.s:4-11, 24-29 *)
Definition syscall_entry (n : Z) : list instr :=
  [ISti; IPushImm n] ++ save_context ++ restore_kernel_segments ++ [IMovRsp RDI].
(** syscall.s:33-37 *)
Definition syscall_exit : list instr := restore_context ++ [IAddRsp 8; IIretq].

(** irqs.s, syscall.s: entry, call and exit *)
Definition irq_stub (n : Z) : list instr := irq_entry n ++ [ICall] ++ irq_exit.
(** irqs.s, syscall.s: entry, call and exit *)
Definition syscall_stub (n : Z) : list instr := syscall_entry n ++ [ICall] ++ syscall_exit.

(** isrs.s:25-56: which vectors use create_isr (4-12) and which create_isr_dummy (14-23) *)
Definition isr_has_code (n : Z) : bool := (n =? 8) || ((10 <=? n) && (n <=? 14)).
(** as above, isrs.s:25-56; 4-12; 14-23 *)
Definition isr_entry (n : Z) : list instr :=
  if isr_has_code n then [ICli; IPushImm n; IPush RBP]
  else [ICli; IPushImm 0; IPushImm n; IPush RBP].
(** isrs.s:58-63 *)
Definition isr_exit : list instr := [IAddRsp 16; IIretq].

(** The processor's part of an interrupt through a 64-bit interrupt gate (Intel SDM vol. 3, 6.14):
    [top] is the 16-byte aligned stack (the current one rounded down, or that of the TSS);
    ss, rsp, rflags, cs, rip and possibly an error code are pushed and IF is cleared. *)
Definition cpu_enter (top target new_cs : Z) (error_code : option Z) (m : machine) : machine :=
  let m1 := push (rip m) (push (cs m) (push (rflags m) (push (rsp m) (push (ss m) (set_rsp top m))))) in
  let m2 := match error_code with Some e => push e m1 | None => m1 end in
  {| regs := regs m2; rsp := rsp m2; rflags := Z.ldiff (rflags m2) IF_mask; rip := target; cs := new_cs;
     ss := ss m2; segs := segs m2; mem := mem m2 |}.

(** Without privilege change the processor continues on the interrupted stack, rounded down. *)
Definition same_stack_top (m : machine) : Z := rsp m - rsp m mod 16.
