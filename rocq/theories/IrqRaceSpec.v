(** What a program and the handlers of the interrupts print if every printf is one piece. *)
From Coq Require Import NArith List.
From stdpp Require Import gmap.
From Verif Require Import Base PrintfModel PrintfSpec ConsoleModel ConsoleSpec IrqRaceModel.
Import ListNotations.
Local Open Scope outcome_scope.
Local Open Scope N_scope.

Section Runs.
(** What the handler of an interrupt does. *)
Variable handler : regs -> list stmt.
(** From IF = [fl], [p] is run; the interrupts [irqs] are taken, in this order, each between two statements and while IF is set;
    the calls [out] of printf are made, in this order.  [done]: is the program at its end? *)
Inductive runs : forall (fl : bool) (p : list stmt) (irqs : list regs) (out : list pcall) (done : bool), Prop :=
| RStop fl p : runs fl p [] [] false
| REnd fl : runs fl [] [] [] true
| RPrint fl c p irqs out d : runs fl p irqs out d -> runs fl (Print c :: p) irqs (c :: out) d
| REnable fl p irqs out d : runs true p irqs out d -> runs fl (Enable :: p) irqs out d
| RDisable fl p irqs out d : runs false p irqs out d -> runs fl (Disable :: p) irqs out d
| RQuiet fl p irqs out d : runs fl p irqs out d -> runs fl (Quiet :: p) irqs out d
| RInterrupt e p irqs1 out1 irqs2 out2 d :
    runs false (handler e) irqs1 out1 true -> runs true p irqs2 out2 d -> runs true p (e :: irqs1 ++ irqs2) (out1 ++ out2) d
| RInterrupted e p irqs out : runs false (handler e) irqs out false -> runs true p (e :: irqs) out false.
End Runs.
(** The calls a program makes. *)
Definition prints (p : list stmt) : list pcall := flat_map (fun s => match s with Print c => [c] | _ => [] end) p.
(** [l] is found within [m], in its order. *)
Inductive within {A} : list A -> list A -> Prop :=
| WNil m : within [] m
| WHit x l m : within l m -> within (x :: l) (x :: m)
| WMiss x l m : within l m -> within l (x :: m).

(** The interrupts were raised by the schedule. *)
Definition raised (sched : list (option regs)) (irqs : list regs) : Prop := List.Forall (fun e => In (Some e) sched) irqs.

(** ** Printf in pieces: the instructions of [body], one after the other, are printf (C84). *)
Definition pprintf (buf : N) (c : pcall) (k : kernel) : outcome kernel := printf buf (fst c) (snd c) k.
Fixpoint all_works {X} (ws : list (X -> outcome X)) (x : X) : outcome X :=
  match ws with [] => Ok x | w :: ws => x <~ w x; all_works ws x end.
Definition is_printf {L} (buf : N) (body : body_of L) : Prop :=
  forall c k l, (x <~ all_works (fst (body c) ++ snd (body c)) (k, l); Ok (fst x)) = pprintf buf c k.

(** Calls whose texts are what formats and arguments stand for (ConsoleSpec.right_call), and registers of 64 bits. *)
Definition raw (c : call) : pcall := (unparse (c_fmt c), c_args c).
Definition right (m0 : gmap N N) (c : pcall) : Prop := exists c', right_call m0 c' /\ c = raw c'.
Definition words (e : regs) : Prop :=
  r_code e < 2 ^ 64 /\ r_rflags e < 2 ^ 64 /\ r_cs e < 2 ^ 64 /\ r_rip e < 2 ^ 64 /\ r_rbp e < 2 ^ 64 /\ r_rax e < 2 ^ 64.

(** ** Tables of handlers *)
(** IF is clear whenever a handler is registered. *)
Fixpoint careful (fl : bool) (os : list table_op) : bool :=
  match os with
  | [] => true
  | Register _ _ _ :: os => negb fl && careful fl os
  | UnRegister _ _ :: os => careful fl os
  | TEnable :: os => careful true os
  | TDisable :: os => careful false os
  end.
(** Nobody registers the null pointer. *)
Definition real_handlers (os : list table_op) : Prop := forall i h d, In (Register i h d) os -> h <> 0%N.
