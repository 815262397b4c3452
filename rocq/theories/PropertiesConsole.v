(** C83-C86: what stands on the screen after a text, a printf, a fault and the boot messages. *)
From Coq Require Import ZArith String.
From stdpp Require Import gmap.
From Verif Require Import Base E820Model StubModel StubSpec StubExamples PrintfModel PrintfSpec StringSpec VesaModel VesaSpec HwExamples
  ConsoleModel ConsoleSpec ConsoleProofs ConsoleFault ConsoleExamples.

(** C83: any text, with newlines, tabs and full pages, in any font and colour: the screen is that of the typewriter, or the
    text leaves the page by newlines and the behaviour is undefined. *)
Theorem C83_typewriter : forall font fc text s, (0 <= xpos s < 180 -> 0 <= ypos s ->
  if stays text (xpos s) (ypos s)
  then exists s', color_print font fc text s = Ok s' /\ shows font fc s (type_text text (carriage (xpos s) (ypos s))) s'
  else color_print font fc text s = UB)%Z.
Proof. exact typewriter. Qed.
Print Assumptions C83_typewriter.
Example C83_example : stays [97; 98; 10; 9; 99]%Z 0 0 = true /\
  let k := type_text [97; 98; 10; 9; 99]%Z (carriage 0 0) in
  drawn k 0%Z = [97%Z] /\ drawn k 1%Z = [98%Z] /\ drawn k 180%Z = [32%Z] /\ drawn k 189%Z = [99%Z] /\ cx k = 10%Z /\ cy k = 1%Z.
Proof. vm_compute. repeat split. Qed.
Example C83_page_example : let k := type_text [97; 98]%Z (carriage 179 55) in
  drawn k 0%Z = [98%Z] /\ fresh_paper k = true /\ cx k = 1%Z.
Proof. vm_compute. repeat split. Qed.

(** C83: no place is struck twice on the same paper. *)
Theorem C83_once : forall text x y n, (0 <= x < 180 -> 0 <= y -> (length (drawn (type_text text (carriage x y)) n) <= 1)%nat)%Z.
Proof. exact struck_once. Qed.
Print Assumptions C83_once.

(** C83: lines that fit the rest of the page stand below each other. *)
Theorem C83_lines : forall ls s, (Forall line_ok ls -> xpos s = 0 -> 0 <= ypos s -> ypos s + Z.of_nat (length ls) <= 56 ->
  exists s', color_print font 0xffffff (lines_text ls) s = Ok s' /\ shows_lines font s (ypos s) ls s')%Z.
Proof. exact lines_printed_at. Qed.
Print Assumptions C83_lines.
Example C83_lines_example : Forall line_ok [letters "first"; letters ""; letters "third"] /\ page [letters "first"; letters ""; letters "third"] 361 = [104%Z].
Proof. exact lines_ok_example. Qed.

(** C84 (part): calls of printf, one after the other, put the texts their formats and arguments stand for on the screen.
    Missing: %f (C81), the conversion of -2^63 (C06), outputs of 1024 characters and more (below). *)
Theorem C84_printf_partial : forall m0 buf cs k, (Forall (right_call m0) cs -> (0 < buf)%N -> (buf + 1024 < 2 ^ 64)%N -> ready m0 buf (k_mem k) ->
  0 <= xpos (k_screen k) < 180 -> 0 <= ypos (k_screen k) ->
  let calls := map (fun c => (unparse (c_fmt c), c_args c)) cs in
  if stays (all_text cs) (xpos (k_screen k)) (ypos (k_screen k))
  then exists k', printfs buf calls k = Ok k' /\
         shows font 0xffffff (k_screen k) (type_text (all_text cs) (carriage (xpos (k_screen k)) (ypos (k_screen k)))) (k_screen k')
  else printfs buf calls k = UB)%Z.
Proof. exact printf_sequence. Qed.
Print Assumptions C84_printf_partial.
Example C84_example : right_call demo_strings demo_call /\ ready demo_strings 100 demo_memory /\
  unparse (c_fmt demo_call) = bytes "a=%ul %s" ++ newline /\ all_text [demo_call] = letters "a=42 Page Fault" ++ [10%Z].
Proof. split; [exact demo_right|]. split; [exact demo_ready|]. split; reflexivity. Qed.

(** C84: an output of 1024 characters or more fills the buffer; what lies behind it in memory is printed as well, the rest of
    the text is not. *)
Theorem C84_long_refuted : forall m0 buf ds args out args' k tail, (Forall wf_directive ds -> renders_all m0 ds args out args' ->
  (0 < buf)%N -> (buf + 1024 < 2 ^ 64)%N -> ready m0 buf (k_mem k) -> 0 <= xpos (k_screen k) < 180 -> 0 <= ypos (k_screen k) ->
  (1024 <= length out)%nat -> Forall (fun c => c <> 0%N) (take 1024 out) -> string_at (k_mem k) (buf + 1024) tail ->
  stays (map Z.of_N (take 1024 out ++ tail)) (xpos (k_screen k)) (ypos (k_screen k)) = true ->
  exists k', printf buf (unparse ds) args k = Ok k' /\
    shows font 0xffffff (k_screen k) (type_text (map Z.of_N (take 1024 out ++ tail)) (carriage (xpos (k_screen k)) (ypos (k_screen k)))) (k_screen k'))%Z.
Proof. exact printf_overrun. Qed.
Print Assumptions C84_long_refuted.
Example C84_long_example : Forall wf_directive long_format /\ renders_all ∅ long_format [] (replicate 1030 120%N) [] /\ ready ∅ 100 long_memory /\
  string_at long_memory (100 + 1024) [33%N] /\ stays (map Z.of_N (take 1024 (replicate 1030 120%N) ++ [33%N])) 0 0 = true.
Proof. exact long_case. Qed.

(** C84: two texts that look alike on a black screen agree in every place: the printable characters of the font have
    different glyphs, none of them blank, and every other character is blank. *)
Theorem C84_legible : forall fc base t1 t2 x1 y1 x2 y2 s1 s2, (fc <> BLACK -> (forall X Y, on_screen X Y -> pixel base X Y = BLACK) ->
  0 <= x1 < 180 -> 0 <= y1 -> 0 <= x2 < 180 -> 0 <= y2 ->
  shows font fc base (type_text t1 (carriage x1 y1)) s1 -> shows font fc base (type_text t2 (carriage x2 y2)) s2 ->
  (forall X Y, on_screen X Y -> pixel s1 X Y = pixel s2 X Y) ->
  forall n, 0 <= n < 180 * 56 -> seen (drawn (type_text t1 (carriage x1 y1)) n) = seen (drawn (type_text t2 (carriage x2 y2)) n))%Z.
Proof. exact texts_legible. Qed.
Print Assumptions C84_legible.
Example C84_legible_example : seen (drawn (type_text [97; 32; 98]%Z (carriage 0 0)) 0) = Some 97%Z /\
  seen (drawn (type_text [97; 32; 98]%Z (carriage 0 0)) 1) = None /\ font 97 9 <> 0%Z.
Proof. vm_compute. repeat split. discriminate. Qed.

(** C85 (part): from the interrupted program to the screen: the stub's frame gives the report its number, code and registers.
    Missing: the vectors 17, 21, 29 and 30 (C49_shifted_refuted). *)
Theorem C85_fault_partial : forall h ra top t c v e m m0 buf ex k y, (
  0 <= v < 32 -> v <> 17 -> v <> 21 -> v <> 29 -> v <> 30 ->
  word e -> word (rip m) -> word (cs m) -> word (rflags m) -> word (rsp m) -> word (ss m) ->
  (0 < buf)%N -> (buf + 1024 < 2 ^ 64)%N -> ready m0 buf (k_mem k) ->
  string_at m0 (ex (Z.to_N v)) (bytes (exception_name (Z.to_N v))) ->
  xpos (k_screen k) = 0 -> ypos (k_screen k) = y -> 0 <= y <= 54 ->
  let code := if cpu_pushes_code v then Some e else None in
  let m1 := exec_list h ra (isr_entry v) (cpu_enter top t c code m) in
  exists lines k',
    fault_report (Z.to_N v) (if cpu_pushes_code v then Z.to_N e else 0%N) (Z.to_N (rip m)) (Z.to_N (rflags m)) (Z.to_N (cs m))
      (Z.to_N (rsp m)) (Z.to_N (ss m)) (exception_name (Z.to_N v)) lines /\
    fault_handler ex buf (fault_of m1) k = Ok k' /\ shows_lines font (k_screen k) y lines (k_screen k'))%Z.
Proof. exact fault_shown. Qed.
Print Assumptions C85_fault_partial.
Example C85_example : ready demo_strings 100 demo_memory /\ string_at demo_strings 2000 (bytes (exception_name 14)) /\
  word 6 /\ word (rip demo_machine) /\ word (cs demo_machine) /\ word (rflags demo_machine) /\ word (rsp demo_machine) /\ word (ss demo_machine).
Proof. split; [exact demo_ready|]. split; [exact demo_name|exact demo_words]. Qed.

(** C85: exceptions the architecture defines are called reserved. *)
Theorem C85_name_refuted : exists v, (v < 32)%N /\ architecture_defines v = true /\ exceptions v = "Reserved"%string.
Proof. exact (ex_intro _ 21%N (conj eq_refl (conj eq_refl eq_refl))). Qed.
Print Assumptions C85_name_refuted.

(** C86: whatever the BIOS stored, the five lines of the boot report stand at the top of the screen. *)
Theorem C86_boot : forall m0 buf bm pde k, (0 < buf)%N -> (buf + 1024 < 2 ^ 64)%N -> ready m0 buf (k_mem k) -> (pde < 2 ^ 64)%N ->
  let (entries, available) := e820_init bm in
  exists lines k', boot_report (N.of_nat (length entries)) (available / 2 ^ 20) pde lines /\
    boot_prints buf (N.of_nat (length entries)) available pde k = Ok k' /\ shows_lines font (k_screen k) 0 lines (k_screen k').
Proof. exact boot_shown. Qed.
Print Assumptions C86_boot.
Example C86_example : ready demo_strings 100 demo_memory /\ e820_init (fun _ => 0%N) = ([], 0%N).
Proof. split; [exact demo_ready|reflexivity]. Qed.
