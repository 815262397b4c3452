(** From the exception to the screen: the stub's frame (C49) is what the report shows. *)
From Coq Require Import ZArith Lia ZifyBool ZifyNat ZifyN String Ascii.
From stdpp Require Import gmap.
From Verif Require Import Base E820Model E820Proofs StubModel StubSpec StubProofs StubExamples PrintfModel PrintfSpec VesaModel VesaSpec VesaProofs
  ConsoleModel ConsoleSpec ConsoleProofs ConsolePrintf ConsoleReports ConsoleMessages.
Local Open Scope Z_scope.

(** interrupt.cpp:236 with isrs.s:52-60: regs are the words at rsp when the stub calls _fault_handler *)
Definition fault_of (m : machine) : fault_regs :=
  {| error_no := Z.to_N (read_ffield m (rsp m) F_error_no); error_code := Z.to_N (read_ffield m (rsp m) F_error_code);
     f_rip := Z.to_N (read_ffield m (rsp m) F_rip); f_cs := Z.to_N (read_ffield m (rsp m) F_cs);
     f_rflags := Z.to_N (read_ffield m (rsp m) F_rflags); f_rsp := Z.to_N (read_ffield m (rsp m) F_rsp);
     f_ss := Z.to_N (read_ffield m (rsp m) F_ss) |}.

Definition word (z : Z) : Prop := 0 <= z < 2 ^ 64.
Lemma named n : (n < 32)%N -> exceptions n = exception_name n.
Proof.
  intros H. assert (F : forallb (fun n => String.eqb (exceptions n) (exception_name n)) (map N.of_nat (seq 0 32)) = true) by (vm_compute; reflexivity).
  rewrite forallb_forall in F. apply String.eqb_eq, F, in_map_iff. exists (N.to_nat n). split; [lia|]. apply in_seq. lia.
Qed.
Lemma fault_shown h ra top t c v e m m0 buf ex k y :
  0 <= v < 32 -> v <> 17 -> v <> 21 -> v <> 29 -> v <> 30 ->
  word e -> word (rip m) -> word (cs m) -> word (rflags m) -> word (rsp m) -> word (ss m) ->
  (0 < buf)%N -> (buf + 1024 < 2 ^ 64)%N -> ready m0 buf (k_mem k) ->
  string_at m0 (ex (Z.to_N v)) (bytes (exception_name (Z.to_N v))) ->
  xpos (k_screen k) = 0 -> ypos (k_screen k) = y -> 0 <= y <= 54 ->
  let code := if cpu_pushes_code v then Some e else None in
  let m1 := exec_list h ra (isr_entry v) (cpu_enter top t c code m) in
  exists lines k',
    fault_report (Z.to_N v) (if cpu_pushes_code v then Z.to_N e else 0%N) (Z.to_N (rip m)) (Z.to_N (rflags m)) (Z.to_N (cs m))
      (Z.to_N (rsp m)) (Z.to_N (ss m)) (exception_name (Z.to_N v)) lines /\
    fault_handler ex buf (fault_of m1) k = Ok k' /\ shows_lines font (k_screen k) y lines (k_screen k').
Proof.
  intros Hv. rewrite <- (named (Z.to_N v)) by lia. intros V1 V2 V3 V4 We Wip Wcs Wfl Wsp Wss Hb Hb2 Hm Hs Hx Hy Hy0 code m1.
  destruct (isr_frames h ra top t c v e m Hv V1 V2 V3 V4) as (_ & F1 & F2 & F3 & F4 & F5 & F6 & F7 & _).
  fold code in F1, F2, F3, F4, F5, F6, F7. fold m1 in F1, F2, F3, F4, F5, F6, F7.
  assert (Er : fault_of m1 = {| error_no := Z.to_N v; error_code := if cpu_pushes_code v then Z.to_N e else 0%N; f_rip := Z.to_N (rip m);
    f_cs := Z.to_N (cs m); f_rflags := Z.to_N (rflags m); f_rsp := Z.to_N (rsp m); f_ss := Z.to_N (ss m) |}).
  { unfold fault_of. rewrite F1, F2, F3, F4, F5, F6, F7. destruct (cpu_pushes_code v); reflexivity. }
  rewrite Er. clearbody m1. clear F1 F2 F3 F4 F5 F6 F7 Er.
  unfold word in *. change (2 ^ 64)%Z with (Z.of_N (2 ^ 64)) in *.
  edestruct (fault_printed m0 buf ex {| error_no := Z.to_N v; error_code := if cpu_pushes_code v then Z.to_N e else 0%N; f_rip := Z.to_N (rip m);
    f_cs := Z.to_N (cs m); f_rflags := Z.to_N (rflags m); f_rsp := Z.to_N (rsp m); f_ss := Z.to_N (ss m) |} k y) as (lines & k' & R & E & _ & S);
    [exact Hb|exact Hb2|exact Hm|exact Hs|cbn [error_no error_code f_rip f_rflags f_cs f_rsp f_ss] ..|exact Hx|exact Hy|exact Hy0|]; try lia.
  { destruct (cpu_pushes_code v); lia. }
  exists lines, k'. split; [exact R|]. split; [exact E|exact S].
Qed.

Lemma scan_small m n : forall a av, (av < 2 ^ 64)%N -> (snd (scan m a n av) < 2 ^ 64)%N /\ (length (fst (scan m a n av)) <= n)%nat.
Proof.
  induction n as [|n IH]; intros a av Ha; cbn [scan]; [cbn [fst snd length]; lia|]. cbv zeta. destruct (_ || _); [cbn [fst snd length]; lia|].
  specialize (IH (a + 20)%N (if (e_type (read_entry m a) =? 1)%N then (av + e_len (read_entry m a)) mod 2 ^ 64 else av)%N).
  destruct (scan m (a + 20) n _) as [es x]. cbn [fst snd length] in *.
  destruct IH as [I1 I2]; [|lia]. destruct (_ =? 1)%N; [apply N.mod_lt; discriminate|exact Ha].
Qed.
Lemma boot_shown m0 buf bm pde k : (0 < buf)%N -> (buf + 1024 < 2 ^ 64)%N -> ready m0 buf (k_mem k) -> (pde < 2 ^ 64)%N ->
  let (entries, available) := e820_init bm in
  exists lines k', boot_report (N.of_nat (length entries)) (available / 2 ^ 20) pde lines /\
    boot_prints buf (N.of_nat (length entries)) available pde k = Ok k' /\ shows_lines font (k_screen k) 0 lines (k_screen k').
Proof.
  intros Hb Hb2 Hm Hp. destruct (e820_init bm) as [entries available] eqn:E.
  pose proof (scan_small bm 20 e820_addr 0 ltac:(lia)) as S. unfold e820_init in E. rewrite E in S. cbn [fst snd] in S.
  destruct (boot_printed m0 buf (N.of_nat (length entries)) available pde k Hb Hb2 Hm) as (lines & k' & R & P & _ & S'); [lia..|].
  exists lines, k'. auto.
Qed.
Lemma lines_printed_at ls s : Forall line_ok ls -> xpos s = 0 -> 0 <= ypos s -> ypos s + Z.of_nat (length ls) <= 56 ->
  exists s', color_print font WHITE (lines_text ls) s = Ok s' /\ shows_lines font s (ypos s) ls s'.
Proof.
  intros H Hx Hy Hl. destruct (text_shows font WHITE s (lines_text ls) (carriage (xpos s) (ypos s)) s (carriage_shows _ _ _)) as (s' & E & S & _); [lia|exact Hy| |].
  { rewrite Hx. apply stays_lines; assumption. }
  exists s'. split; [exact E|]. apply lines_shown; try assumption. rewrite Hx in S. exact S.
Qed.
Lemma typewriter font fc text s : 0 <= xpos s < 180 -> 0 <= ypos s ->
  if stays text (xpos s) (ypos s)
  then exists s', color_print font fc text s = Ok s' /\ shows font fc s (type_text text (carriage (xpos s) (ypos s))) s'
  else color_print font fc text s = UB.
Proof.
  intros Hx Hy. pose proof (print_stays font fc text s Hx Hy) as P. destruct (stays _ _ _) eqn:Es; [|exact P].
  destruct (text_shows font fc s text (carriage (xpos s) (ypos s)) s (carriage_shows _ _ _) Hx Hy Es) as (s' & E & S & _). eauto.
Qed.
Lemma printf_sequence m0 buf cs k : Forall (right_call m0) cs -> (0 < buf)%N -> (buf + 1024 < 2 ^ 64)%N -> ready m0 buf (k_mem k) ->
  0 <= xpos (k_screen k) < 180 -> 0 <= ypos (k_screen k) ->
  let calls := map (fun c => (unparse (c_fmt c), c_args c)) cs in
  if stays (all_text cs) (xpos (k_screen k)) (ypos (k_screen k))
  then exists k', printfs buf calls k = Ok k' /\
         shows font WHITE (k_screen k) (type_text (all_text cs) (carriage (xpos (k_screen k)) (ypos (k_screen k)))) (k_screen k')
  else printfs buf calls k = UB.
Proof.
  intros H Hb Hb2 Hm Hx Hy calls. pose proof (printfs_text m0 buf cs H Hb Hb2 k (k_screen k) _ Hm (carriage_shows _ _ _) (carriage_tidy _ _ Hx Hy)) as P.
  cbv zeta in P. fold calls in P. destruct (stays _ _ _); [|exact P]. destruct P as (k' & E & _ & S). eauto.
Qed.
Lemma printf_overrun m0 buf ds args out args' k tail : Forall wf_directive ds -> renders_all m0 ds args out args' ->
  (0 < buf)%N -> (buf + 1024 < 2 ^ 64)%N -> ready m0 buf (k_mem k) -> 0 <= xpos (k_screen k) < 180 -> 0 <= ypos (k_screen k) ->
  (1024 <= length out)%nat -> Forall (fun c => c <> 0%N) (take 1024 out) -> string_at (k_mem k) (buf + 1024) tail ->
  stays (map Z.of_N (take 1024 out ++ tail)) (xpos (k_screen k)) (ypos (k_screen k)) = true ->
  exists k', printf buf (unparse ds) args k = Ok k' /\
    shows font WHITE (k_screen k) (type_text (map Z.of_N (take 1024 out ++ tail)) (carriage (xpos (k_screen k)) (ypos (k_screen k)))) (k_screen k').
Proof.
  intros Hd Hr Hb Hb2 Hm Hx Hy Hl Hn [T1 T2] Hst.
  exact (printf_long m0 buf ds args out args' k tail _ _ Hd Hr Hb Hb2 Hm Hl Hn T1 T2 (carriage_shows _ _ _) (carriage_tidy _ _ Hx Hy) Hst).
Qed.
Lemma texts_legible fc base t1 t2 x1 y1 x2 y2 s1 s2 : fc <> BLACK -> (forall X Y, on_screen X Y -> pixel base X Y = BLACK) ->
  0 <= x1 < 180 -> 0 <= y1 -> 0 <= x2 < 180 -> 0 <= y2 ->
  shows font fc base (type_text t1 (carriage x1 y1)) s1 -> shows font fc base (type_text t2 (carriage x2 y2)) s2 ->
  (forall X Y, on_screen X Y -> pixel s1 X Y = pixel s2 X Y) ->
  forall n, 0 <= n < 180 * 56 -> seen (drawn (type_text t1 (carriage x1 y1)) n) = seen (drawn (type_text t2 (carriage x2 y2)) n).
Proof.
  intros Hfc Hb X1 Y1 X2 Y2 S1 S2 HP. apply (legible fc base _ _ s1 s2 Hfc Hb); try assumption; apply type_tidy, carriage_tidy; assumption.
Qed.
