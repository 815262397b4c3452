(** Interrupts that arrive while the kernel is at work: the processor of the IrqGuard (kernel/include/core/interrupt.hpp:123-134,
    kernel/include/core/arch.hpp:19-26), printf (kernel/src/io/veas.cpp:321-332, 362-389), _irq_handler and TriggerIrq
    (kernel/src/core/interrupt.cpp:178-192, 244-255), RegisterIrqHandler and UnRegisterIrqHandler (129-139, 152-160).
    One processor; an interrupt may come before any instruction when IF is set, of any line and as often as the surroundings like
    (the two controllers would hold some of them back).
    Simplified: exceptions and the NMI are left out (their handler never returns, interrupt.cpp:241); what instructions do apart
    from IF is given by functions on the state they share and on the registers and stack variables of their own, which the
    interrupted code finds again as they were (C48). *)
From Coq Require Import NArith Bool List String.
From stdpp Require Import gmap.
From Verif Require Import Base StringModel PrintfModel VesaModel ConsoleModel.
Import ListNotations.
Local Open Scope outcome_scope.
Local Open Scope N_scope.

(** ** The processor *)
(** interrupt.hpp:51-73, the members that are printed *)
Record regs := { r_code : N; r_rflags : N; r_cs : N; r_rip : N; r_rbp : N; r_rax : N }.
Section Machine.
Context {St L : Type}.   (* what all code shares; registers and variables on the stack *)
Inductive instr :=
| Work (f : St * L -> outcome (St * L))
| Save      (* pushfq; pop rflags  (arch.hpp:20) *)
| Cli       (* arch.hpp:20, interrupt.cpp:176 *)
| Sti       (* interrupt.cpp:172-173 *)
| Restore.  (* push rflags; popfq  (arch.hpp:25) *)
(** [guards]: what the IrqGuards of the running code have saved, the latest first; [suspended]: the interrupted programs, the
    latest first; [taken]: the interrupts so far *)
Record machine := { shared : St; local : L; iflag : bool; guards : list bool; code : list instr;
                    suspended : list (L * bool * list bool * list instr); taken : list regs }.
(** One instruction; behind the last one of a handler comes iretq (isr.s, the stubs) *)
Definition exec1 (m : machine) : outcome machine :=
  match code m with
  | [] =>
      match suspended m with
      | [] => Ok m
      | (l, f, g, c) :: s =>
          Ok {| shared := shared m; local := l; iflag := f; guards := g; code := c; suspended := s; taken := taken m |}
      end
  | Work f :: c =>
      r <~ f (shared m, local m);
      Ok {| shared := fst r; local := snd r; iflag := iflag m; guards := guards m; code := c; suspended := suspended m; taken := taken m |}
  | Save :: c =>
      Ok {| shared := shared m; local := local m; iflag := iflag m; guards := iflag m :: guards m; code := c;
            suspended := suspended m; taken := taken m |}
  | Cli :: c =>
      Ok {| shared := shared m; local := local m; iflag := false; guards := guards m; code := c; suspended := suspended m; taken := taken m |}
  | Sti :: c =>
      Ok {| shared := shared m; local := local m; iflag := true; guards := guards m; code := c; suspended := suspended m; taken := taken m |}
  | Restore :: c =>
      match guards m with
      | [] => UB
      | b :: g =>
          Ok {| shared := shared m; local := local m; iflag := b; guards := g; code := c; suspended := suspended m; taken := taken m |}
      end
  end.
(** The gates are interrupt gates: IF is clear in the handler (C46).  While IF is clear nothing happens. *)
Definition interrupt (entry : regs -> list instr) (e : regs) (m : machine) : machine :=
  if iflag m then
    {| shared := shared m; local := local m; iflag := false; guards := []; code := entry e;
       suspended := (local m, true, guards m, code m) :: suspended m; taken := taken m ++ [e] |}
  else m.
(** [None]: the processor goes on; [Some e]: an interrupt is raised *)
Fixpoint run (entry : regs -> list instr) (sched : list (option regs)) (m : machine) : outcome machine :=
  match sched with
  | [] => Ok m
  | None :: sched => m <~ exec1 m; run entry sched m
  | Some e :: sched => run entry sched (interrupt entry e m)
  end.
(** model only: nothing is left to do *)
Definition finished (m : machine) : bool := match code m, suspended m with [], [] => true | _, _ => false end.
(** model only: the state before anything happens *)
Definition start (s : St) (l : L) (fl : bool) (c : list instr) : machine :=
  {| shared := s; local := l; iflag := fl; guards := []; code := c; suspended := []; taken := [] |}.
End Machine.
Arguments instr : clear implicits.
Arguments machine : clear implicits.

(** ** Programs that print *)
Definition pcall : Type := list N * list arg.   (* format and arguments *)
Inductive stmt :=
| Print (c : pcall)   (* io::printf *)
| Enable              (* Interrupt::Enable, interrupt.cpp:171-174 *)
| Disable             (* Interrupt::Disable, 175-177 *)
| Quiet.              (* anything that leaves IF, the screen and the static buffer alone *)
(** interrupt.cpp:183-188 *)
Definition trigger_report (e : regs) : list pcall :=
  [(bytes "regs->rflags = %xl" ++ [9], [A64 (r_rflags e)]); (bytes "regs->cs = %ul" ++ [9], [A64 (r_cs e)]);
   (bytes "regs->rip = %xl" ++ [9], [A64 (r_rip e)]); (bytes "regs->code = %ul" ++ [9], [A64 (r_code e)]);
   (bytes "regs->rbp = %xl" ++ [9], [A64 (r_rbp e)]); (bytes "regs->rax = %xl" ++ [9], [A64 (r_rax e)])].
Section Printing.
Context {L : Type}.
(** The instructions of printf between its guards: veas.cpp:327-330 (formatting into the buffer) and 365-388 (drawing). *)
Definition body_of : Type := pcall -> list (kernel * L -> outcome (kernel * L)) * list (kernel * L -> outcome (kernel * L)).
Definition print_code (body : body_of) (c : pcall) : list (instr kernel L) :=
  Save :: Cli ::                          (* veas.cpp:326 *)
  map Work (fst (body c)) ++
  Save :: Cli ::                          (* 363 *)
  map Work (snd (body c)) ++
  [Restore; Restore].                     (* 389, 332 *)
(** printf and ColorPrint without their guards *)
Definition bare_code (body : body_of) (c : pcall) : list (instr kernel L) := map Work (fst (body c)) ++ map Work (snd (body c)).
(** [pc]: the instructions of printf *)
Variable pc : pcall -> list (instr kernel L).
(** Registered handlers by line (interrupt.cpp:189-191); no statements if there is none. *)
Variable handlers : N -> list stmt.
(** model only: the instructions of a statement *)
Definition stmt_code (s : stmt) : list (instr kernel L) :=
  match s with Print c => pc c | Enable => [Sti] | Disable => [Cli] | Quiet => [Work Ok] end.
(** model only: the operations of a program in order *)
Definition compile (p : list stmt) : list (instr kernel L) := concat (map stmt_code p).
(** interrupt.cpp:247-253: the two out_byte, TriggerIrq *)
Definition irq_body (e : regs) : list stmt := Quiet :: Quiet :: map Print (trigger_report e) ++ handlers (r_code e).
(** interrupt.cpp:244-255 *)
Definition irq_entry (e : regs) : list (instr kernel L) := Save :: Cli :: compile (irq_body e) ++ [Restore].
End Printing.
Arguments body_of : clear implicits.

(** ** A division of printf into instructions: the buffer is formatted and its text measured (string_view.hpp:22-23), two
    characters are drawn one by one, then the rest is.  The variables are where the next character lies and how many there are. *)
Definition format_step (buf : N) (c : pcall) (x : kernel * (N * N)) : outcome (kernel * (N * N)) :=
  match vslprintf (k_mem (fst x)) buf (buf + 1024) (fst c) (snd c) with
  | FErr _ => UB
  | FOk (m, _) => n <~ strlen (S (size m)) m buf; Ok ({| k_mem := m; k_screen := k_screen (fst x) |}, (buf, n))
  end.
(** veas.cpp:325-332, 379-392: one character, the rest, and all steps *)
Definition draw_next (x : kernel * (N * N)) : outcome (kernel * (N * N)) :=
  if snd (snd x) =? 0 then Ok x
  else
    c <~ load8 (k_mem (fst x)) (fst (snd x));
    s <~ color_print font WHITE [Z.of_N c] (k_screen (fst x));
    Ok ({| k_mem := k_mem (fst x); k_screen := s |}, (fst (snd x) + 1, snd (snd x) - 1)).
(** veas.cpp:325-332, 379-392: one character, the rest, and all steps *)
Definition draw_rest (x : kernel * (N * N)) : outcome (kernel * (N * N)) :=
  str <~ load_bytes (k_mem (fst x)) (fst (snd x)) (N.to_nat (snd (snd x)));
  s <~ color_print font WHITE (map Z.of_N str) (k_screen (fst x));
  Ok ({| k_mem := k_mem (fst x); k_screen := s |}, (fst (snd x), 0)).
(** veas.cpp:325-332, 379-392: one character, the rest, and all steps *)
Definition steps (buf : N) : body_of (N * N) := fun c => ([format_step buf c], [draw_next; draw_next; draw_rest]).

(** ** Registering handlers (interrupt.cpp:129-139, 152-160) *)
(** irqs_ (interrupt.hpp:119), and the calls of interrupt.cpp:190 so far: line, handler and data.  Handlers and data are their
    addresses, 0 is nullptr. *)
Record irq_table := { entry_handler : N -> N; entry_data : N -> N; called : list (N * N * N) }.
(** model only: update of one component of the state *)
Definition set_handler (i h : N) (t : irq_table) : irq_table :=
  {| entry_handler := fun j => if j =? i then h else entry_handler t j; entry_data := entry_data t; called := called t |}.
(** model only: update of one component of the state *)
Definition set_data (i d : N) (t : irq_table) : irq_table :=
  {| entry_handler := entry_handler t; entry_data := fun j => if j =? i then d else entry_data t j; called := called t |}.
(** model only: the operations a program may use *)
Inductive table_op :=
| Register (i h d : N) | UnRegister (i h : N) | TEnable | TDisable.
(** The variable is whether the test of 130 or 153 went well.  tuple.hpp:144-147, 187-190 assign member by member, the handler
    first.  What is printed (136, 154) is left out. *)
Definition op_code (o : table_op) : list (instr irq_table bool) :=
  match o with
  | Register i h d =>
      [Work (fun x => Ok (fst x, (i <? 16) && (entry_handler (fst x) i =? 0)));
       Work (fun x => Ok (if snd x : bool then set_handler i h (fst x) else fst x, snd x));
       Work (fun x => Ok (if snd x : bool then set_data i d (fst x) else fst x, snd x))]
  | UnRegister i h =>
      [Work (fun x => Ok (fst x, (i <? 16) && (entry_handler (fst x) i =? h)));
       Work (fun x => Ok (if snd x : bool then set_handler i 0 (fst x) else fst x, snd x));
       Work (fun x => Ok (if snd x : bool then set_data i 0 (fst x) else fst x, snd x))]
  | TEnable => [Sti]
  | TDisable => [Cli]
  end.
(** model only: the operations of a program in order *)
Definition ops_code (os : list table_op) : list (instr irq_table bool) := concat (map op_code os).
(** interrupt.cpp:178-192, 244-255; handlers do not touch the table *)
Definition call_entry (e : regs) : list (instr irq_table bool) :=
  [Save; Cli;
   Work (fun x =>
     let h := entry_handler (fst x) (r_code e) in
     let d := entry_data (fst x) (r_code e) in
     Ok (if h =? 0 then fst x
         else {| entry_handler := entry_handler (fst x); entry_data := entry_data (fst x);
                 called := called (fst x) ++ [(r_code e, h, d)] |}, snd x));
   Restore].
(** The static array (interrupt.hpp:119) *)
Definition empty_table : irq_table := {| entry_handler := fun _ => 0; entry_data := fun _ => 0; called := [] |}.
