(** Model of the interrupt tables of kernel/src/core/interrupt.cpp: IDT gates, interrupt
    controller programming, registration and dispatch. *)
From stdpp Require Import list.
From Coq Require Import NArith.
From Verif Require Import Base.
Local Open Scope N_scope.
Local Open Scope outcome_scope.

(** ** Gates *)

(** interrupt.hpp:17-25, the members of IDT_DSC with FLAGS (8-13) spread out *)
Record gate := {
  low_offset : N; selector : N; zero : N;
  f_type : N; f_zero : N; f_dpl : N; f_present : N;
  middle_offset : N; high_offset : N; reserved : N }.

(** A gate of zeros, as a static table (interrupt.hpp:117) has before any constructor runs, if its storage is zeroed. *)
Definition gate0 : gate :=
  {| low_offset := 0; selector := 0; zero := 0; f_type := 0; f_zero := 0; f_dpl := 0; f_present := 0;
     middle_offset := 0; high_offset := 0; reserved := 0 |}.

(** interrupt.cpp:27-36; each member is assigned modulo its width *)
Definition set_gate (handler sel ty z dpl p : N) : gate :=
  {| low_offset := N.land handler 0xFFFF;
     selector := sel mod 2 ^ 16;
     zero := 0;
     f_type := ty mod 2 ^ 4; f_zero := z mod 2; f_dpl := dpl mod 2 ^ 2; f_present := p mod 2;
     middle_offset := N.land (N.shiftr handler 16) 0xFFFF;
     high_offset := N.shiftr handler 32 mod 2 ^ 32;
     reserved := 0 |}.

(** The 16 bytes of a gate in memory as one little-endian number: packed members in order,
    bit-fields from the low end (interrupt.hpp:8-27). *)
Definition gate_bits (g : gate) : N :=
  low_offset g + selector g * 2 ^ 16 + zero g * 2 ^ 32 +
  (f_type g + f_zero g * 2 ^ 4 + f_dpl g * 2 ^ 5 + f_present g * 2 ^ 7) * 2 ^ 40 +
  middle_offset g * 2 ^ 48 + high_offset g * 2 ^ 64 + reserved g * 2 ^ 96.

(** interrupt.cpp:38-103: the three install functions as a table of calls of set_gate.
    [isr], [irq], [sys] give the addresses of _isr0.., _irq0.., _syscall0... *)
Definition install (isr irq sys : N -> N) : list (N * gate) :=
  map (fun n => (n, set_gate (isr n) 8 14 0 0 1))
    [0; 1; 2; 3; 4; 5; 6; 7; 8; 9; 10; 11; 12; 13; 14; 15; 16; 17; 18; 19; 20; 21; 22; 23; 24; 25;
     26; 27; 28; 29; 30; 31] ++
  map (fun n => (32 + n, set_gate (irq n) 8 14 0 0 1))
    [0; 1; 2; 3; 4; 5; 6; 7; 8; 9; 10; 11; 12; 13; 14; 15] ++
  map (fun n => (50 + n, set_gate (sys n) 8 14 0 3 1)) [0; 1; 2; 3; 4; 5; 6; 7; 8; 9].

(** model only: the calls of set_gate in order *)
Definition write_gates (ws : list (N * gate)) (t : list gate) : list gate :=
  fold_left (fun t w => <[N.to_nat (fst w) := snd w]> t) ws t.

(** The table after Init (interrupt.cpp:6-14); [old]: its contents before, which nothing in the kernel clears. *)
Definition idt_after_init (isr irq sys : N -> N) (old : N -> gate) : list gate :=
  write_gates (install isr irq sys) (map (fun k => old (N.of_nat k)) (seq 0 256)).

(** ** Interrupt controllers: two 8259 chips.
    [icw]: which initialisation word the data port expects next (0: none, the mask). *)
Record pic := { p_icw : N; p_base : N; p_cascade : N; p_mode : N; p_mask : N; p_isr : N }.

(** Command port: ICW1 (bit 4) starts initialisation and clears mask and in-service bits;
    OCW2 with value 0x20 is the non-specific end-of-interrupt, which clears the in-service bit
    of highest priority (the lowest numbered one). *)
Definition lowest_bit_off (x : N) : N := N.land x (x - 1).
(** 8259A: both controllers and their ports *)
Definition pic_command (v : N) (c : pic) : pic :=
  if N.testbit v 4 then
    {| p_icw := 2; p_base := p_base c; p_cascade := p_cascade c; p_mode := p_mode c; p_mask := 0; p_isr := 0 |}
  else if v =? 0x20 then
    {| p_icw := p_icw c; p_base := p_base c; p_cascade := p_cascade c; p_mode := p_mode c;
       p_mask := p_mask c; p_isr := lowest_bit_off (p_isr c) |}
  else c.
(** Data port: ICW2 (vector base), ICW3 (cascade), ICW4 (mode; ICW1 announced it), else the mask. *)
Definition pic_data (v : N) (c : pic) : pic :=
  if p_icw c =? 2 then
    {| p_icw := 3; p_base := v; p_cascade := p_cascade c; p_mode := p_mode c; p_mask := p_mask c; p_isr := p_isr c |}
  else if p_icw c =? 3 then
    {| p_icw := 4; p_base := p_base c; p_cascade := v; p_mode := p_mode c; p_mask := p_mask c; p_isr := p_isr c |}
  else if p_icw c =? 4 then
    {| p_icw := 0; p_base := p_base c; p_cascade := p_cascade c; p_mode := v; p_mask := p_mask c; p_isr := p_isr c |}
  else
    {| p_icw := 0; p_base := p_base c; p_cascade := p_cascade c; p_mode := p_mode c; p_mask := v; p_isr := p_isr c |}.

(** 8259A: both controllers and their ports *)
Record pics := { master : pic; slave : pic }.
(** io::out_byte (io.hpp:14-18) to the ports of the two chips. *)
Definition out_byte (port v : N) (s : pics) : pics :=
  if port =? 0x20 then {| master := pic_command v (master s); slave := slave s |}
  else if port =? 0x21 then {| master := pic_data v (master s); slave := slave s |}
  else if port =? 0xA0 then {| master := master s; slave := pic_command v (slave s) |}
  else if port =? 0xA1 then {| master := master s; slave := pic_data v (slave s) |}
  else s.

(** interrupt.cpp:105-127 *)
Definition remap_irqs (s : pics) : pics :=
  fold_left (fun s pv => out_byte (fst pv) (snd pv) s)
    [(0x20, 0x11); (0xA0, 0x11); (0x21, 0x20); (0xA1, 0x28); (0x21, 0x04); (0xA1, 0x02);
     (0x21, 0x01); (0xA1, 0x01); (0x21, 0x00); (0xA1, 0x00)] s.

(** The processor acknowledges line [n] (0..15): the in-service bits are set and the vector is
    delivered.  Lines 8..15 arrive at the slave and through the master's cascade line 2. *)
Definition pic_ack (n : N) (s : pics) : pics * N :=
  if n <? 8 then
    ({| master := {| p_icw := p_icw (master s); p_base := p_base (master s); p_cascade := p_cascade (master s);
                     p_mode := p_mode (master s); p_mask := p_mask (master s);
                     p_isr := N.lor (p_isr (master s)) (2 ^ n) |};
        slave := slave s |}, p_base (master s) + n)
  else
    ({| master := {| p_icw := p_icw (master s); p_base := p_base (master s); p_cascade := p_cascade (master s);
                     p_mode := p_mode (master s); p_mask := p_mask (master s);
                     p_isr := N.lor (p_isr (master s)) (2 ^ 2) |};
        slave := {| p_icw := p_icw (slave s); p_base := p_base (slave s); p_cascade := p_cascade (slave s);
                    p_mode := p_mode (slave s); p_mask := p_mask (slave s);
                    p_isr := N.lor (p_isr (slave s)) (2 ^ (n - 8)) |} |}, p_base (slave s) + (n - 8)).

(** interrupt.cpp:247-251: the port writes of _irq_handler *)
Definition eoi_writes (code : N) : list (N * N) :=
  (if 8 <=? code then [(0xA0, 0x20)] else []) ++ [(0x20, 0x20)].
(** 8259A: both controllers and their ports *)
Definition out_bytes (ws : list (N * N)) (s : pics) : pics :=
  fold_left (fun s pv => out_byte (fst pv) (snd pv) s) ws s.
(** as above, interrupt.cpp:247-251 *)
Definition send_eoi (code : N) (s : pics) : pics := out_bytes (eoi_writes code) s.

(** ** Registration (interrupt.cpp:129-170) and dispatch (178-198).
    Handlers and data are addresses; 0 is the null pointer.  A system call has no data. *)
Notation irq_table := (list (N * N)).
Definition irqs_init : irq_table := replicate 16 (0, 0).   (* 20; irq_count, interrupt.hpp:116 *)
Definition syscalls_init : list N := replicate 10 0.       (* 21; syscall_count, interrupt.hpp:115 *)

(** 129-139 *)
Definition register_irq (t : irq_table) (irq h d : N) : irq_table * bool :=
  match t !! N.to_nat irq with
  | None => (t, false)
  | Some (h0, _) => if negb (h0 =? 0) then (t, false) else (<[N.to_nat irq := (h, d)]> t, true)
  end.
(** 140-150 *)
Definition register_syscall (t : list N) (n h : N) : list N * bool :=
  match t !! N.to_nat n with
  | None => (t, false)
  | Some h0 => if negb (h0 =? 0) then (t, false) else (<[N.to_nat n := h]> t, true)
  end.
(** 152-160 *)
Definition unregister_irq (t : irq_table) (irq h : N) : irq_table * bool :=
  match t !! N.to_nat irq with
  | None => (t, false)
  | Some (h0, _) => if negb (h0 =? h) then (t, false) else (<[N.to_nat irq := (0, 0)]> t, true)
  end.
(** 162-170 *)
Definition unregister_syscall (t : list N) (n h : N) : list N * bool :=
  match t !! N.to_nat n with
  | None => (t, false)
  | Some h0 => if negb (h0 =? h) then (t, false) else (<[N.to_nat n := 0]> t, true)
  end.
(** 178-192: which call is made (handler, data); operator[] is unchecked *)
Definition trigger_irq (t : irq_table) (code : N) : outcome (option (N * N)) :=
  match t !! N.to_nat code with
  | None => UB
  | Some (h, d) => Ok (if negb (h =? 0) then Some (h, d) else None)
  end.
(** 194-198 *)
Definition trigger_syscall (t : list N) (code : N) : outcome (option N) :=
  match t !! N.to_nat code with
  | None => UB
  | Some h => Ok (if negb (h =? 0) then Some h else None)
  end.

(** A history of calls on the IRQ table (system calls: data 0). *)
Inductive reg_op := Reg (line h d : N) | Unreg (line h : N).
(** model only: one operation of a program *)
Definition irq_step (t : irq_table) (o : reg_op) : irq_table * bool :=
  match o with Reg l h d => register_irq t l h d | Unreg l h => unregister_irq t l h end.
(** model only: one operation of a program *)
Definition sys_step (t : list N) (o : reg_op) : list N * bool :=
  match o with Reg l h _ => register_syscall t l h | Unreg l h => unregister_syscall t l h end.
(** model only: the operations of a program in order *)
Fixpoint irq_run (t : irq_table) (os : list reg_op) : irq_table * list bool :=
  match os with
  | [] => (t, [])
  | o :: os => let (t1, b) := irq_step t o in let (t2, bs) := irq_run t1 os in (t2, b :: bs)
  end.
(** model only: the operations of a program in order *)
Fixpoint sys_run (t : list N) (os : list reg_op) : list N * list bool :=
  match os with
  | [] => (t, [])
  | o :: os => let (t1, b) := sys_step t o in let (t2, bs) := sys_run t1 os in (t2, b :: bs)
  end.

(** ** IrqGuard (interrupt.hpp:123-134, arch.hpp:19-26).
    The machine state is rflags; statements between are opaque except for sti and cli. *)
Inductive stmt :=
| SSkip
| SSeq (a b : stmt)
| SGuard (body : stmt)   (* { IrqGuard g; body } *)
| SEnable                (* sti, interrupt.cpp:171-174 *)
| SDisable.              (* cli, 175-177 *)
Definition IF_bit : N := 9.
(** Running a statement gives the final rflags and the rflags seen at every point. *)
Fixpoint run_stmt (fl : N) (s : stmt) : N * list N :=
  match s with
  | SSkip => (fl, [fl])
  | SSeq a b => let (f1, t1) := run_stmt fl a in let (f2, t2) := run_stmt f1 b in (f2, t1 ++ t2)
  | SGuard body =>
      let saved := fl in                                   (* pushfq; pop rflags *)
      let (_, t) := run_stmt (N.clearbit fl IF_bit) body in  (* cli *)
      (saved, t)                                           (* push rflags; popfq *)
  | SEnable => (N.setbit fl IF_bit, [])
  | SDisable => (N.clearbit fl IF_bit, [])
  end.
