(** The text on the screen when interrupts arrive while the kernel prints. *)
From Coq Require Import ZArith Lia ZifyBool ZifyNat ZifyN String Ascii.
From stdpp Require Import gmap.
From Verif Require Import Base StringModel PrintfModel PrintfSpec VesaModel VesaSpec ConsoleModel ConsoleSpec ConsoleProofs ConsolePrintf ConsoleReports
  ConsoleMessages ConsoleFault ConsoleExamples HwExamples IrqRaceModel IrqRaceSpec IrqRaceProofs.
Local Open Scope N_scope.
Local Open Scope outcome_scope.

(** ** [steps] is printf *)
Lemma strlen_load fuel : forall m a n n', strlen_loop fuel m a n = Ok n' ->
  n <= n' /\ exists str, load_bytes m a (N.to_nat (n' - n)) = Ok str.
Proof.
  induction fuel as [|fuel IH]; intros m a n n' H; [discriminate|]. cbn in H. destruct (load8 m a) as [b| |] eqn:Hb; try discriminate. cbn in H.
  destruct (b =? 0) eqn:Eb.
  - injection H as <-. split; [lia|]. rewrite N.sub_diag. exists []. reflexivity.
  - destruct (IH _ _ _ _ H) as [Hle (str & Hs)]. split; [lia|]. exists (b :: str).
    replace (N.to_nat (n' - n)) with (S (N.to_nat (n' - (n + 1)))) by lia. cbn. rewrite Hb. cbn. rewrite Hs. reflexivity.
Qed.
Lemma print_cons c str s : color_print font WHITE (c :: str) s = (s' <~ color_print font WHITE [c] s; color_print font WHITE str s').
Proof. cbn. destruct (print1 font WHITE c s); reflexivity. Qed.
Lemma draw_one k a n str ws : load_bytes (k_mem k) a (N.to_nat n) = Ok str ->
  (forall k' a' n' str', k_mem k' = k_mem k -> load_bytes (k_mem k') a' (N.to_nat n') = Ok str' ->
     (x <~ all_works ws (k', (a', n')); Ok (fst x)) = (s <~ color_print font WHITE (map Z.of_N str') (k_screen k'); Ok {| k_mem := k_mem k'; k_screen := s |})) ->
  (x <~ all_works (draw_next :: ws) (k, (a, n)); Ok (fst x)) =
  (s <~ color_print font WHITE (map Z.of_N str) (k_screen k); Ok {| k_mem := k_mem k; k_screen := s |}).
Proof.
  intros Hl IH. cbn [all_works]. unfold draw_next at 1. cbn [fst snd]. destruct (N.eqb_spec n 0) as [->|Hn].
  - cbn [obind]. apply IH; [reflexivity|exact Hl].
  - replace (N.to_nat n) with (S (N.to_nat (n - 1))) in Hl by lia. cbn [load_bytes] in Hl.
    destruct (load8 (k_mem k) a) as [c| |] eqn:Hc; try discriminate. cbn [obind] in Hl.
    destruct (load_bytes (k_mem k) (a + 1) (N.to_nat (n - 1))) as [str'| |] eqn:Hr; try discriminate. cbn [obind] in Hl. injection Hl as <-.
    cbn [obind map]. rewrite (print_cons (Z.of_N c) (map Z.of_N str')). destruct (color_print font WHITE [Z.of_N c] (k_screen k)) as [s| |]; cbn [obind]; [|reflexivity|reflexivity].
    rewrite (IH {| k_mem := k_mem k; k_screen := s |} (a + 1) (n - 1) str'); [reflexivity|reflexivity|exact Hr].
Qed.
Lemma steps_printf buf : is_printf buf (steps buf).
Proof.
  intros [fmt args] k l. unfold pprintf, printf. cbn [steps fst snd app all_works]. unfold format_step at 1. cbn [fst snd].
  destruct (vslprintf (k_mem k) buf (buf + 1024) fmt args) as [[m n]|]; [|reflexivity].
  unfold view_of. destruct (strlen (S (size m)) m buf) as [len| |] eqn:Hl; [|reflexivity|reflexivity]. cbn [obind].
  destruct (strlen_load _ _ _ _ _ Hl) as [_ (str & Hs)]. rewrite N.sub_0_r in Hs. rewrite Hs. cbn [obind].
  apply (draw_one {| k_mem := m; k_screen := k_screen k |} buf len str [draw_next; draw_rest] Hs).
  intros k1 a1 n1 str1 _ H1. apply (draw_one k1 a1 n1 str1 [draw_rest] H1).
  intros k2 a2 n2 str2 _ H2. cbn [all_works]. unfold draw_rest. cbn [fst snd]. rewrite H2. cbn [obind].
  destruct (color_print font WHITE (map Z.of_N str2) (k_screen k2)); reflexivity.
Qed.

(** ** The report of an interrupt *)
Lemma wf_tab : Forall wf_directive [Lit 9].
Proof. constructor; [split; discriminate|constructor]. Qed.
Lemma item_right m0 s d b n : n < 2 ^ 64 -> (d = ul /\ b = 10 \/ d = xl /\ b = 16) ->
  forallb (fun c => negb (c =? 0) && negb (c =? 37)) (bytes s) = true -> (length (bytes s) < 100)%nat ->
  right m0 (unparse (lit s ++ [d] ++ [Lit 9]), [A64 n]).
Proof.
  intros Hn Hd Hs Hl. destruct (number b n Hn) as (ds & D & Ld); [destruct Hd as [[_ ->]|[_ ->] ]; auto|].
  exists {| c_fmt := lit s ++ [d] ++ [Lit 9]; c_args := [A64 n]; c_out := bytes s ++ ds ++ [9] |}. split; [|reflexivity].
  split; [|split]; cbn [c_fmt c_args c_out].
  - apply Forall_app_2; [apply wf_lit; exact Hs|]. apply Forall_app_2; [|exact wf_tab]. constructor; [|constructor].
    destruct Hd as [[-> _]|[-> _] ]; [exact wf_ul|exact wf_xl].
  - exists []. eapply renders_app; [apply renders_lits|]. eapply renders_app; [|apply (renders_lits _ [9])].
    destruct Hd as [[-> ->]|[-> ->] ]; [apply renders_ul|apply renders_xl]; assumption.
  - rewrite !app_length. cbn [length]. lia.
Qed.
Lemma report_right m0 e c : words e -> In c (trigger_report e) -> right m0 c.
Proof.
  intros (W1 & W2 & W3 & W4 & W5 & W6) H. cbn [trigger_report In] in H.
  destruct H as [<-|[<-|[<-|[<-|[<-|[<-|[] ] ] ] ] ] ].
  - apply (item_right m0 "regs->rflags = " xl 16); auto; cbn; lia.
  - apply (item_right m0 "regs->cs = " ul 10); auto; cbn; lia.
  - apply (item_right m0 "regs->rip = " xl 16); auto; cbn; lia.
  - apply (item_right m0 "regs->code = " ul 10); auto; cbn; lia.
  - apply (item_right m0 "regs->rbp = " xl 16); auto; cbn; lia.
  - apply (item_right m0 "regs->rax = " xl 16); auto; cbn; lia.
Qed.
Lemma prints_app p q : prints (p ++ q) = prints p ++ prints q.
Proof. unfold prints. apply flat_map_app. Qed.
Lemma prints_map l : prints (map Print l) = l.
Proof. induction l as [|c l IH]; [reflexivity|]. cbn. f_equal. exact IH. Qed.
Lemma all_right m0 handlers fl p irqs out d : runs (irq_body handlers) fl p irqs out d ->
  (forall c, In c (prints p) -> right m0 c) -> (forall i c, In c (prints (handlers i)) -> right m0 c) -> List.Forall words irqs ->
  exists cs, Forall (right_call m0) cs /\ out = map raw cs.
Proof.
  intros Hr Hp Hh Hw. assert (H : forall c, In c out -> right m0 c).
  { intros c Hin. destruct (runs_from _ _ _ _ _ _ _ Hr Hin) as [Hc|(e & He & Hc)]; [auto|].
    change (irq_body handlers e) with ([Quiet; Quiet] ++ map Print (trigger_report e) ++ handlers (r_code e)) in Hc. rewrite !prints_app in Hc. cbn [prints flat_map app] in Hc. apply in_app_or in Hc. destruct Hc as [Hc|Hc]; [|eauto].
    rewrite prints_map in Hc. apply (report_right m0 e); [|exact Hc]. rewrite List.Forall_forall in Hw. auto. }
  clear Hr. induction out as [|c out IH]; [exists []; split; [constructor|reflexivity]|].
  destruct IH as (cs & Hcs & ->); [intros c' Hc'; apply H; right; exact Hc'|].
  destruct (H c) as (c' & Hc & ->); [left; reflexivity|]. exists (c' :: cs). split; [constructor; assumption|reflexivity].
Qed.

Lemma text_whole m0 buf {L} (body : body_of L) handlers fl p k l sched :
  is_printf buf body -> (forall c, In c (prints p) -> right m0 c) -> (forall i c, In c (prints (handlers i)) -> right m0 c) ->
  (forall e, In (Some e) sched -> words e) -> 0 < buf -> buf + 1024 < 2 ^ 64 -> ready m0 buf (k_mem k) ->
  (0 <= xpos (k_screen k) < 180)%Z -> (0 <= ypos (k_screen k))%Z ->
  match run (irq_entry (print_code body) handlers) sched (start k l fl (compile (print_code body) p)) with
  | Ok m => finished m = true -> exists cs, runs (irq_body handlers) fl p (taken m) (map raw cs) true /\ Forall (right_call m0) cs /\
      shows font WHITE (k_screen k) (type_text (all_text cs) (carriage (xpos (k_screen k)) (ypos (k_screen k)))) (k_screen (shared m))
  | UB => exists irqs cs, runs (irq_body handlers) fl p irqs (map raw cs) false /\ raised sched irqs /\ Forall (right_call m0) cs /\
      stays (all_text cs) (xpos (k_screen k)) (ypos (k_screen k)) = false
  | Fuel => False
  end.
Proof.
  intros Hb Hp Hh Hw B1 B2 Hm Hx Hy. pose proof (printed_whole buf body handlers Hb fl p k l sched) as P.
  assert (W : forall irqs, raised sched irqs -> List.Forall words irqs).
  { intros irqs. unfold raised. rewrite !List.Forall_forall. auto. }
  destruct (run _ _ _) as [m| |].
  - destruct P as (out & d & Hr & Hra & Hd). intros Hf. destruct (Hd Hf) as [-> E].
    destruct (all_right m0 _ _ _ _ _ _ Hr Hp Hh (W _ Hra)) as (cs & Hcs & ->). exists cs. split; [exact Hr|]. split; [exact Hcs|].
    pose proof (printf_sequence m0 buf cs k Hcs B1 B2 Hm Hx Hy) as S. cbv zeta in S. unfold raw in E.
    destruct (stays _ _ _); [|pose proof (eq_trans (eq_sym E) S); discriminate]. destruct S as (k' & E' & S). pose proof (eq_trans (eq_sym E) E') as E2. injection E2 as ->. exact S.
  - destruct P as (irqs & out & Hr & Hra & E). destruct (all_right m0 _ _ _ _ _ _ Hr Hp Hh (W _ Hra)) as (cs & Hcs & ->).
    exists irqs, cs. split; [exact Hr|]. split; [exact Hra|]. split; [exact Hcs|].
    pose proof (printf_sequence m0 buf cs k Hcs B1 B2 Hm Hx Hy) as S. cbv zeta in S. unfold raw in E.
    destruct (stays _ _ _); [|reflexivity]. destruct S as (k' & E' & S). pose proof (eq_trans (eq_sym E) E'). discriminate.
  - destruct P as (irqs & out & Hr & Hra & E). destruct (all_right m0 _ _ _ _ _ _ Hr Hp Hh (W _ Hra)) as (cs & Hcs & ->).
    pose proof (printf_sequence m0 buf cs k Hcs B1 B2 Hm Hx Hy) as S. cbv zeta in S. unfold raw in E.
    destruct (stays _ _ _); [|pose proof (eq_trans (eq_sym E) S); discriminate]. destruct S as (k' & E' & S). pose proof (eq_trans (eq_sym E) E'). discriminate.
Qed.

(** ** Without the guards: "ab" and a newline, and a handler that prints "xyz" *)
Definition demo_regs : regs := {| r_code := 1; r_rflags := 0x202; r_cs := 8; r_rip := 0x100000; r_rbp := 0; r_rax := 7 |}.
Definition ab : pcall := (bytes "ab" ++ newline, []).
Definition xyz : pcall := (bytes "xyz", []).
Definition bare_run : outcome (machine kernel (N * N)) :=
  run (fun _ => compile (bare_code (steps 100)) [Print xyz]) ([None; None; Some demo_regs] ++ replicate 8 None)
    (start demo_kernel (0, 0) true (compile (bare_code (steps 100)) [Print ab])).
Definition row_of (k : outcome kernel) : option Z := match k with Ok k => Some (ypos (k_screen k)) | _ => None end.
Lemma runs_one h e c out : h e = [Print xyz] -> runs h true [Print c] [e] out true -> out = [c; xyz] \/ out = [xyz; c].
Proof.
  intros Hh H. inversion H as [| |fl0 c0 p0 i0 o0 d0 Hr| | | |e0 p0 i1 o1 i2 o2 d0 Hr1 Hr2 E1 E2 E3|]; subst.
  - left. f_equal. inversion Hr as [| | | | | |e0 p0 i1 o1 i2 o2 d0 Hr1 Hr2|]; subst.
    rewrite Hh in Hr1. match goal with E : _ ++ _ = [] |- _ => apply app_eq_nil in E; destruct E; subst end.
    inversion Hr1 as [| |? ? ? ? ? ? Hr3| | | | |]; subst. inversion Hr3; subst. inversion Hr2; subst. reflexivity.
  - right. rewrite Hh in Hr1. match goal with E : _ ++ _ = [] |- _ => apply app_eq_nil in E; destruct E; subst end.
    inversion Hr1 as [| |? ? ? ? ? ? Hr3| | | | |]; subst. inversion Hr3; subst.
    inversion Hr2 as [| |? ? ? ? ? ? Hr4| | | | |]; subst. inversion Hr4; subst. reflexivity.
Qed.
Lemma bare_torn : exists m, bare_run = Ok m /\ finished m = true /\ taken m = [demo_regs] /\
  forall out, runs (fun _ => [Print xyz]) true [Print ab] (taken m) out true -> printfs 100 out demo_kernel <> Ok (shared m).
Proof.
  assert (E : match bare_run with Ok m => Some (finished m, length (taken m), hd_error (taken m), ypos (k_screen (shared m))) | _ => None end =
              Some (true, 1%nat, Some demo_regs, 0%Z)) by (vm_compute; reflexivity).
  destruct bare_run as [m| |]; [|discriminate|discriminate]. injection E as E1 E2 E3 E4. exists m. split; [reflexivity|]. split; [exact E1|].
  assert (Et : taken m = [demo_regs]). { destruct (taken m) as [|e [|e' t]]; [discriminate| |discriminate]. cbn in E3. congruence. }
  split; [exact Et|]. rewrite Et. intros out Hr. apply runs_one in Hr; [|reflexivity]. intros Hk.
  assert (R : row_of (printfs 100 out demo_kernel) = Some 1%Z) by (destruct Hr as [->| ->]; vm_compute; reflexivity).
  rewrite Hk in R. cbn in R. rewrite E4 in R. discriminate.
Qed.
(** With the guards the same interrupt, at whatever point, gives one of the two. *)
Definition guarded_rows : list (option Z) :=
  map (fun n => match run (fun _ => Save :: Cli :: compile (print_code (steps 100)) [Print xyz] ++ [Restore])
                        (replicate n None ++ Some demo_regs :: replicate 30 None)
                        (start demo_kernel (0, 0) true (compile (print_code (steps 100)) [Print ab])) with
                Ok m => if finished m then Some (ypos (k_screen (shared m))) else None | _ => None end) (seq 0 12).
Lemma guarded_whole : guarded_rows = replicate 12 (Some 1%Z).
Proof. vm_compute. reflexivity. Qed.
Lemma words_demo : words demo_regs.
Proof. repeat split; reflexivity. Qed.
Lemma ab_right : right demo_strings ab.
Proof.
  exists {| c_fmt := lit "ab" ++ [Lit 10]; c_args := []; c_out := bytes "ab" ++ [10] |}. split; [|reflexivity].
  split; [|split]; cbn [c_fmt c_args c_out].
  - apply Forall_app_2; [apply wf_lit; reflexivity|]. constructor; [split; discriminate|constructor].
  - exists []. eapply renders_app; [apply renders_lits|apply (renders_lits _ [10])].
  - cbn. lia.
Qed.
Lemma runs_facts h fl p irqs out d : runs h fl p irqs out d ->
  (d = true -> within (prints p) out) /\
  (forall c, In c out -> In c (prints p) \/ exists e, In e irqs /\ In c (prints (h e))) /\
  (fl = false -> ~ In Enable p -> irqs = [] /\ (d = true -> out = prints p)).
Proof.
  intros H. split; [exact (runs_order _ _ _ _ _ _ H)|]. split; [intros c; exact (runs_from _ _ _ _ _ _ c H)|].
  intros ->. exact (runs_off _ _ _ _ _ H).
Qed.
Lemma ab_then_xyz : runs (fun _ => [Print xyz]) true [Print ab] [demo_regs] [ab; xyz] true.
Proof.
  apply RPrint. apply (RInterrupt _ demo_regs [] [] [xyz] [] []); [|apply REnd]. apply RPrint, REnd.
Qed.
Definition careful_demo : list table_op := [Register 1 7 9; TEnable; TDisable; UnRegister 1 7; Register 1 8 10].
Lemma careful_case : careful false careful_demo = true /\ real_handlers careful_demo /\
  exists m, run call_entry (replicate 4 None ++ Some demo_regs :: replicate 10 None) (start empty_table false false (ops_code careful_demo)) = Ok m /\
    called (shared m) = [(1, 7, 9)].
Proof.
  split; [reflexivity|]. split.
  - intros i h d H. cbn in H. repeat (destruct H as [H|H]; [try discriminate H; injection H as <- <- <-; discriminate|]). destruct H.
  - assert (E : match run call_entry (replicate 4 None ++ Some demo_regs :: replicate 10 None) (start empty_table false false (ops_code careful_demo)) with
                Ok m => called (shared m) | _ => [] end = [(1, 7, 9)]) by (vm_compute; reflexivity).
    destruct (run _ _ _) as [m| |]; [|discriminate|discriminate]. exists m. auto.
Qed.
