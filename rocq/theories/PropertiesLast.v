(** C101: the last screen: what main leaves there after protecting a page and writing to it. *)
From Coq Require Import ZArith String.
From stdpp Require Import gmap.
From Verif Require Import Base PagingModel PagingSpec SwitchModel E820Model StubModel StubExamples PrintfModel PrintfSpec VesaModel VesaSpec StringSpec
  ConsoleModel ConsoleSpec ConsoleFault ConsoleExamples StartModel LastModel LastSpec LastScreen LastExamples.
Local Open Scope N_scope.

(** Whatever the map, the pages used so far, and whatever the processor looks up, forgets and the kernel writes between the accesses of main:
    the screen ends with five lines, in the fourth 4000e1, and then with "*p = 2" or the report of page fault 14 with code 3;
    [slips] says which. *)
Theorem C101_screen : forall h ra top t c m m0 buf ex bm k e0 e1 e2 e3 e4 e5 s,
  used_tables (pm s) -> tlb_true s -> Forall harmless (e0 ++ e1 ++ e2 ++ e3 ++ e4 ++ e5) ->
  word (rip m) -> word (rflags m) -> word (rsp m) -> cs m = 8%Z -> ss m = 16%Z ->
  0 < buf -> buf + 1024 < 2 ^ 64 -> ready m0 buf (k_mem k) -> string_at m0 (ex 14) (bytes "Page Fault") ->
  exists x lines k', main_end e0 e1 e2 e3 e4 e5 s = At x /\ screen_of h ra top t c m ex buf bm x k = Ok k' /\
    last_lines (slips e1 e2 e3 e4) (N.of_nat (length (fst (e820_init bm)))) (snd (e820_init bm) / 2 ^ 20)
      (Z.to_N (rip m)) (Z.to_N (rflags m)) (Z.to_N (rsp m)) lines /\
    shows_lines font (k_screen k) 0 lines (k_screen k').
Proof. exact last_shown. Qed.
Print Assumptions C101_screen.
Example C101_example : (used_tables (pm fresh) /\ tlb_true fresh) /\ (forall e3, Forall harmless e3 -> Forall harmless (work ++ work ++ work ++ e3 ++ work ++ work)) /\
  ready demo_strings 100 demo_memory /\ string_at demo_strings 2000 (bytes "Page Fault") /\
  (word (rip main_state) /\ word (rflags main_state) /\ word (rsp main_state) /\ cs main_state = 8%Z /\ ss main_state = 16%Z) /\
  slips work work work work = true /\ slips work work (Forget (page_of cell) :: work) work = false.
Proof. split; [exact fresh_used|]. split; [exact works_harmless|]. split; [exact demo_ready|]. split; [exact demo_name|]. split; [exact main_words|]. split; reflexivity. Qed.
Example C101_run_example : ending_of (main_end work work work work work work fresh) = Some (true, 0x4000e1, 2) /\
  ending_of (main_end work work work (Forget (page_of cell) :: work) work work fresh) = Some (false, 0x4000e1, 3).
Proof. exact both_endings. Qed.

(** How main ends, and the rights then: the accessed and dirty bits change no translation. *)
Theorem C101_ends : forall e0 e1 e2 e3 e4 e5 s, used_tables (pm s) -> tlb_true s -> Forall harmless (e0 ++ e1 ++ e2 ++ e3 ++ e4 ++ e5) ->
  exists x, main_end e0 e1 e2 e3 e4 e5 s = At x /\
    match x with
    | Looped pde v _ => slips e1 e2 e3 e4 = true /\ pde = 0x4000e1 /\ v = 2
    | Faulted pde code _ => slips e1 e2 e3 e4 = false /\ pde = 0x4000e1 /\ code = 3
    end /\
    forall va, va < 2 ^ 64 -> walk_at PagingModel.cr3 (quads (pm match x with Looped _ _ s => s | Faulted _ _ s => s end)) va =
      match expected_phys va with
      | Some p => Some {| phys := p; user := false;
          writable := negb (match window_offset va with Some o => (0x400000 <=? o) && (o <? 0x600000) | None => false end) |}
      | None => None
      end.
Proof. exact rights_at_end. Qed.
Print Assumptions C101_ends.

(** With a flush of the page after the change (invlpg, missing in main.cpp:37) the second write is always caught. *)
Theorem C101_flush : forall e0 e1 e2 e3 e4 e5 s, used_tables (pm s) -> tlb_true s -> Forall harmless (e0 ++ e1 ++ e2 ++ e3 ++ e4 ++ e5) ->
  In (Forget (page_of cell)) (e3 ++ e4) -> exists s', main_end e0 e1 e2 e3 e4 e5 s = At (Faulted 0x4000e1 3 s').
Proof. exact flush_ends. Qed.
Print Assumptions C101_flush.
(** Without it the write can go through from every state. *)
Theorem C101_caught_refuted : forall s, used_tables (pm s) -> tlb_true s -> exists s', main_end [] [] [] [] [] [] s = At (Looped 0x4000e1 2 s').
Proof. exact always_possible. Qed.
Print Assumptions C101_caught_refuted.
