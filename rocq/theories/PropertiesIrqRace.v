(** C97, C98, C103: interrupts that arrive while the kernel prints or registers their handlers. *)
From Coq Require Import ZArith String.
From stdpp Require Import gmap.
From Verif Require Import Base PrintfModel PrintfSpec VesaModel VesaSpec ConsoleModel ConsoleSpec ConsoleProofs ConsoleExamples
  IrqRaceModel IrqRaceSpec IrqRaceProofs IrqRaceTable IrqRaceText IrqRaceGone IrqRaceServed.
Local Open Scope N_scope.

(** C97: whatever the main program and the handlers print, at whatever instructions interrupts arrive, nested or not, and into
    whatever instructions printf is divided: when all is done, the kernel is as after whole calls of printf, one after the other. *)
Theorem C97_whole : forall L buf (body : body_of L) handlers, is_printf buf body -> forall fl p k l sched,
  match run (irq_entry (print_code body) handlers) sched (start k l fl (compile (print_code body) p)) with
  | Ok m => exists out d, runs (irq_body handlers) fl p (taken m) out d /\ raised sched (taken m) /\
      (finished m = true -> d = true /\ printfs buf out k = Ok (shared m))
  | UB => exists irqs out, runs (irq_body handlers) fl p irqs out false /\ raised sched irqs /\ printfs buf out k = UB
  | Fuel => exists irqs out, runs (irq_body handlers) fl p irqs out false /\ raised sched irqs /\ printfs buf out k = Fuel
  end.
Proof. exact @printed_whole. Qed.
Print Assumptions C97_whole.
Example C97_example : is_printf 100 (steps 100) /\ guarded_rows = replicate 12 (Some 1%Z).
Proof. split; [exact (steps_printf 100)|exact guarded_whole]. Qed.

(** C97: the screen shows the typewriter's page of the whole texts, each where [runs] puts it. *)
Theorem C97_text : forall m0 buf L (body : body_of L) handlers fl p k l sched,
  is_printf buf body -> (forall c, In c (prints p) -> right m0 c) -> (forall i c, In c (prints (handlers i)) -> right m0 c) ->
  (forall e, In (Some e) sched -> words e) -> 0 < buf -> buf + 1024 < 2 ^ 64 -> ready m0 buf (k_mem k) ->
  (0 <= xpos (k_screen k) < 180)%Z -> (0 <= ypos (k_screen k))%Z ->
  match run (irq_entry (print_code body) handlers) sched (start k l fl (compile (print_code body) p)) with
  | Ok m => finished m = true -> exists cs, runs (irq_body handlers) fl p (taken m) (map raw cs) true /\ Forall (right_call m0) cs /\
      shows font 0xffffff%Z (k_screen k) (type_text (all_text cs) (carriage (xpos (k_screen k)) (ypos (k_screen k)))) (k_screen (shared m))
  | UB => exists irqs cs, runs (irq_body handlers) fl p irqs (map raw cs) false /\ raised sched irqs /\ Forall (right_call m0) cs /\
      stays (all_text cs) (xpos (k_screen k)) (ypos (k_screen k)) = false
  | Fuel => False
  end.
Proof. exact @text_whole. Qed.
Print Assumptions C97_text.
Example C97_text_example : is_printf 100 (steps 100) /\ right demo_strings ab /\ words demo_regs /\ ready demo_strings 100 (k_mem demo_kernel).
Proof. split; [exact (steps_printf 100)|]. split; [exact ab_right|]. split; [exact words_demo|exact demo_ready]. Qed.

(** C97: the program's own calls stand in its order; every call is one of the program or of a handler that was called; while
    IF is clear and nobody sets it there are only those of the program. *)
Theorem C97_order : forall h fl p irqs out d, runs h fl p irqs out d ->
  (d = true -> within (prints p) out) /\
  (forall c, In c out -> In c (prints p) \/ exists e, In e irqs /\ In c (prints (h e))) /\
  (fl = false -> ~ In Enable p -> irqs = [] /\ (d = true -> out = prints p)).
Proof. exact runs_facts. Qed.
Print Assumptions C97_order.
Example C97_order_example : runs (fun _ => [Print xyz]) true [Print ab] [demo_regs] [ab; xyz] true.
Proof. exact ab_then_xyz. Qed.

(** C97: without the guards of veas.cpp:326 and 363 an interrupt between two characters mixes the texts. *)
Theorem C97_unguarded_refuted : exists m, bare_run = Ok m /\ finished m = true /\ taken m = [demo_regs] /\
  forall out, runs (fun _ => [Print xyz]) true [Print ab] (taken m) out true -> printfs 100 out demo_kernel <> Ok (shared m).
Proof. exact bare_torn. Qed.
Print Assumptions C97_unguarded_refuted.

(** C98, full statement: whatever is registered and unregistered and whenever interrupts arrive, a handler is called with the
    data it was registered with.  Proved if IF is clear while handlers are registered: *)
Theorem C98_data_partial : forall os fl l sched, real_handlers os -> careful fl os = true ->
  exists m, run call_entry sched (start empty_table l fl (ops_code os)) = Ok m /\
    forall i h d, In (i, h, d) (called (shared m)) -> In (Register i h d) os.
Proof. exact own_data. Qed.
Print Assumptions C98_data_partial.
Example C98_example : careful false careful_demo = true /\ real_handlers careful_demo /\
  exists m, run call_entry (replicate 4 None ++ Some demo_regs :: replicate 10 None) (start empty_table false false (ops_code careful_demo)) = Ok m /\
    called (shared m) = [(1, 7, 9)].
Proof. exact careful_case. Qed.

(** C98: otherwise the data may also be missing. *)
Theorem C98_data_or_none : forall os fl l sched, real_handlers os ->
  exists m, run call_entry sched (start empty_table l fl (ops_code os)) = Ok m /\
    forall i h d, In (i, h, d) (called (shared m)) -> In (Register i h d) os \/ d = 0 /\ exists d', In (Register i h d') os.
Proof. exact own_data_or_none. Qed.
Print Assumptions C98_data_or_none.

(** C98: and for every handler there is such a moment: the handler is stored before its data and nothing keeps the interrupt away. *)
Theorem C98_window_refuted : forall i h d e l, i < 16 -> h <> 0 -> r_code e = i ->
  exists sched m, run call_entry sched (start empty_table l true (ops_code [Register i h d])) = Ok m /\ finished m = true /\
    called (shared m) = [(i, h, 0)] /\ entry_data (shared m) i = d.
Proof. exact window. Qed.
Print Assumptions C98_window_refuted.

(** C103: once UnRegisterIrqHandler has returned, the handler is not called any more unless it is registered again, whatever the
    table was, whatever happened before and whenever interrupts arrive. *)
Theorem C103_gone : forall i h os1 os2 t0 l fl sched1 m1 sched2 m2, i < 16 -> h <> 0 -> (forall d, ~ In (Register i h d) os2) ->
  run call_entry sched1 (start t0 l fl (ops_code (os1 ++ UnRegister i h :: os2))) = Ok m1 ->
  suspended m1 = [] -> (length (code m1) <= length (ops_code os2))%nat -> run call_entry sched2 m1 = Ok m2 ->
  exists new, called (shared m2) = called (shared m1) ++ new /\ forall d, ~ In (i, h, d) new.
Proof. exact gone. Qed.
Print Assumptions C103_gone.
Example C103_gone_example : exists m1 m2,
  run call_entry ([None; None; None; None; Some demo_regs] ++ replicate 8 None) (start empty_table false false
    (ops_code ([Register 1 7 9; TEnable] ++ UnRegister 1 7 :: [Register 1 8 2]))) = Ok m1 /\ suspended m1 = [] /\
  code m1 = ops_code [Register 1 8 2] /\ called (shared m1) = [(1, 7, 9)] /\
  run call_entry (Some demo_regs :: replicate 8 None ++ Some demo_regs :: replicate 5 None) m1 = Ok m2 /\
  called (shared m2) = [(1, 7, 9); (1, 8, 2)].
Proof. do 2 eexists. repeat (split; [vm_compute; reflexivity|]). vm_compute. reflexivity. Qed.

(** C103: once RegisterIrqHandler has returned for a free line, every interrupt of the line that the processor takes calls the
    handler with its data, once, and no other handler of the line is called, until the handler is taken out. *)
Theorem C103_served : forall i h d os t0 l fl sched1 m1 sched2 m2, i < 16 -> h <> 0 -> entry_handler t0 i = 0 -> ~ In (UnRegister i h) os ->
  run call_entry sched1 (start t0 l fl (ops_code (Register i h d :: os))) = Ok m1 ->
  suspended m1 = [] -> (length (code m1) <= length (ops_code os))%nat ->
  run call_entry sched2 m1 = Ok m2 -> suspended m2 = [] ->
  exists new, taken m2 = taken m1 ++ new /\
    List.filter (fun x => fst (fst x) =? i) (called (shared m2)) =
    List.filter (fun x => fst (fst x) =? i) (called (shared m1)) ++
      repeat (i, h, d) (length (List.filter (fun e => r_code e =? i) new)).
Proof. exact all_served. Qed.
Print Assumptions C103_served.
Example C103_served_example : exists m1 m2,
  run call_entry [None; None; None] (start empty_table false false (ops_code (Register 1 7 9 :: [TEnable; Register 1 8 2]))) = Ok m1 /\
  suspended m1 = [] /\ code m1 = ops_code [TEnable; Register 1 8 2] /\ called (shared m1) = [] /\
  run call_entry (None :: Some demo_regs :: replicate 8 None ++ Some demo_regs :: replicate 5 None) m1 = Ok m2 /\ suspended m2 = [] /\
  code m2 = [] /\ called (shared m2) = [(1, 7, 9); (1, 7, 9)].
Proof. do 2 eexists. repeat (split; [vm_compute; reflexivity|]). vm_compute. reflexivity. Qed.
