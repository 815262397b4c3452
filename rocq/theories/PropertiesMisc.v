(** C41, C58: atomic, size literals, index sequences, tuple swap. *)
From stdpp Require Import list.
From Coq Require Import NArith ZArith Lia.
From Verif Require Import AtomicModel AtomicSpec AtomicProofs LiteralModel LiteralProofs.
Local Open Scope Z_scope.

(** C41: under every interleaving the final value is the initial value plus everything the calls
    report to have added, modulo 2^w. *)
Theorem C41_no_lost_update : forall w x ts tr y ts', interleaving w x ts tr y ts' ->
  (x < 2 ^ w)%N -> Forall (fits w) tr -> Forall adding tr ->
  Z.of_N y = (Z.of_N x + total tr) mod 2 ^ Z.of_N w /\ (y < 2 ^ w)%N.
Proof. exact adding_total. Qed.
Print Assumptions C41_no_lost_update.
Example C41_example :
  (exists ts', interleaving 8 254 demo_threads demo_trace 0 ts') /\
  Forall (fits 8) demo_trace /\ Forall adding demo_trace /\ total demo_trace = 2.
Proof.
  split; [exact demo_interleaving|]. split; [|split; [|reflexivity]].
  - repeat constructor.
  - repeat constructor.
Qed.

(** C41: each fetch returns the value all earlier calls have produced. *)
Theorem C41_fetch_result : forall w x ts tr1 e tr2 y ts' f v,
  interleaving w x ts (tr1 ++ e :: tr2) y ts' ->
  (x < 2 ^ w)%N -> Forall (fits w) tr1 -> Forall adding tr1 -> ev_op e = AFetch f v ->
  Z.of_N (rval (ev_res e)) = (Z.of_N x + total tr1) mod 2 ^ Z.of_N w.
Proof. exact fetch_result. Qed.
Print Assumptions C41_fetch_result.
Example C41_fetch_example : exists tr1 e tr2,
  demo_trace = tr1 ++ e :: tr2 /\ ev_op e = AFetch Add 1 /\ total tr1 = 1 /\ rval (ev_res e) = 255%N.
Proof.
  exists (take 3 demo_trace), {| ev_thread := 0; ev_op := AFetch Add 1; ev_res := {| rval := 255; rok := true |} |}, [].
  repeat split.
Qed.

(** C41: up to 2^w tickets drawn with fetch_add(1) are distinct. *)
Theorem C41_tickets_distinct : forall w x ts tr y ts' tr1 e1 tr2 e2 tr3,
  interleaving w x ts tr y ts' -> (x < 2 ^ w)%N -> Forall (fits w) tr -> Forall ticketing tr ->
  (N.of_nat (incs tr) <= 2 ^ w)%N ->
  tr = tr1 ++ e1 :: tr2 ++ e2 :: tr3 -> is_inc e1 = true -> is_inc e2 = true ->
  rval (ev_res e1) <> rval (ev_res e2).
Proof. exact tickets_distinct. Qed.
Print Assumptions C41_tickets_distinct.
Example C41_tickets_example : Forall ticketing demo_trace /\ incs demo_trace = 2%nat.
Proof.
  split; [|reflexivity].
  repeat (apply Forall_cons; split;
    [first [left; reflexivity|right; split; [exact I|reflexivity]]|]). constructor.
Qed.

(** C41: a compare-exchange reports success exactly when it wrote; on failure the value is
    untouched and expect receives it; the strong form fails only when the values differ. *)
Theorem C41_cas_report : forall w x ts tr1 e tr2 y ts' weak ex v,
  interleaving w x ts (tr1 ++ e :: tr2) y ts' -> ev_op e = ACas weak ex v ->
  exists before after ts1 ts2,
    interleaving w x ts tr1 before ts1 /\ interleaving w after ts2 tr2 y ts' /\
    (rok (ev_res e) = true -> before = ex /\ after = v /\ rval (ev_res e) = ex) /\
    (rok (ev_res e) = false -> after = before /\ rval (ev_res e) = before /\
                               (weak = false -> before <> ex)).
Proof. exact cas_report. Qed.
Print Assumptions C41_cas_report.
Example C41_cas_example : exists tr1 e tr2, demo_trace = tr1 ++ e :: tr2 /\ ev_op e = ACas false 254 255.
Proof.
  exists (take 2 demo_trace), {| ev_thread := 1; ev_op := ACas false 254 255; ev_res := {| rval := 255; rok := false |} |},
    (drop 3 demo_trace). split; reflexivity.
Qed.

(** C41: a counter bumped by compare-exchange loops counts the successes, wrap-around included. *)
Theorem C41_cas_counter : forall w x ts tr y ts', interleaving w x ts tr y ts' ->
  (x < 2 ^ w)%N -> Forall (cas_inc w) tr ->
  Z.of_N y = (Z.of_N x + Z.of_nat (length (filter (fun e => succeeded e = true) tr))) mod 2 ^ Z.of_N w.
Proof. exact cas_counter. Qed.
Print Assumptions C41_cas_counter.
Example C41_cas_counter_example :
  let tr := [ {| ev_thread := 0; ev_op := ACas false 7 8; ev_res := {| rval := 7; rok := true |} |} ] in
  (exists ts', interleaving 8 7 [Call (ACas false 7 8) (fun _ => Stop)] tr 8 ts') /\ Forall (cas_inc 8) tr.
Proof.
  cbn zeta. split.
  - eexists. eapply (IL_step _ _ _ _ _ _ false); [reflexivity|reflexivity|]. constructor.
  - repeat constructor.
Qed.

(** C41: while threads only load, store and exchange, a load or exchange returns the last value
    written before it, and the value at the end is the last one written. *)
Theorem C41_reads_latest : forall w x ts tr1 e tr2 y ts', interleaving w x ts (tr1 ++ e :: tr2) y ts' -> Forall plain tr1 ->
  (ev_op e = ALoad \/ (exists v, ev_op e = AExchange v)) -> rval (ev_res e) = latest x tr1.
Proof. exact read_latest. Qed.
Print Assumptions C41_reads_latest.
Theorem C41_last_write : forall w x ts tr y ts', interleaving w x ts tr y ts' -> Forall plain tr -> y = latest x tr.
Proof. exact plain_value. Qed.
Print Assumptions C41_last_write.
(** C41: exchanges hand every value to exactly one call: the values given out, and the one left at the
    end, are the values put in, in the same order. *)
Theorem C41_exchange_passes_on : forall w x ts tr y ts', interleaving w x ts tr y ts' -> Forall (fun e => exists v, ev_op e = AExchange v) tr ->
  x :: omap written tr = map (fun e => rval (ev_res e)) tr ++ [y].
Proof. exact exchange_chain. Qed.
Print Assumptions C41_exchange_passes_on.
Example C41_exchange_example :
  (exists ts', interleaving 8 3 [Call (AExchange 5) (fun _ => Stop); Call (AExchange 9) (fun _ => Stop)] pass_trace 9 ts') /\
  Forall (fun e => exists v, ev_op e = AExchange v) pass_trace /\ Forall plain pass_trace.
Proof. split; [exact pass_interleaving|]. split; repeat constructor; eexists; reflexivity. Qed.
(** C41: the operators that return the new value. *)
Theorem C41_apply_result : forall w x ts tr1 e tr2 y ts' f v, interleaving w x ts (tr1 ++ e :: tr2) y ts' ->
  (x < 2 ^ w)%N -> Forall (fits w) (tr1 ++ [e]) -> Forall adding (tr1 ++ [e]) -> ev_op e = AApply f v ->
  Z.of_N (rval (ev_res e)) = (Z.of_N x + total (tr1 ++ [e])) mod 2 ^ Z.of_N w.
Proof. exact apply_result. Qed.
Print Assumptions C41_apply_result.
Example C41_apply_example :
  (exists ts', interleaving 8 3 [Call (AApply Sub 5) (fun _ => Stop)] apply_trace 254 ts') /\ Forall (fits 8) apply_trace /\ Forall adding apply_trace.
Proof. split; [exact apply_interleaving|]. split; repeat constructor. Qed.

(** C58: n_KB, n_MB, n_GB, whenever the result fits. *)
Theorem C58_literals : forall n : N,
  (n * 1024 < 2 ^ 64 -> lit_KB n = n * 1024)%N /\
  (n * 1048576 < 2 ^ 64 -> lit_MB n = n * 1048576)%N /\
  (n * 1073741824 < 2 ^ 64 -> lit_GB n = n * 1073741824)%N.
Proof. exact literals_ok. Qed.
Print Assumptions C58_literals.
Example C58_literals_example : (17179869183 * 1073741824 < 2 ^ 64)%N /\ lit_GB 17179869183 = (2 ^ 64 - 2 ^ 30)%N.
Proof. split; vm_compute; reflexivity. Qed.

(** C58: and modulo 2^64 when it does not. *)
Theorem C58_literals_wrap : forall n : N,
  (lit_KB n = (n * 1024) mod 2 ^ 64 /\ lit_MB n = (n * 1048576) mod 2 ^ 64 /\ lit_GB n = (n * 1073741824) mod 2 ^ 64)%N.
Proof. exact literals_wrap. Qed.
Print Assumptions C58_literals_wrap.
Example C58_literals_wrap_example : lit_GB 17179869185 = 1073741824%N.
Proof. vm_compute. reflexivity. Qed.

(** C58: make_index_sequence<N> is 0, ..., N-1. *)
Theorem C58_index_sequence : forall n, make_index_sequence n = seq 0 n.
Proof. exact make_index_sequence_ok. Qed.
Print Assumptions C58_index_sequence.
Example C58_sequence_example : make_index_sequence 4 = [0; 1; 2; 3]%nat.
Proof. reflexivity. Qed.

(** C58: tuple swap exchanges every component. *)
Theorem C58_tuple_swap : forall {A} (l r : list A), length l = length r -> tuple_swap l r = (r, l).
Proof. exact @tuple_swap_ok. Qed.
Print Assumptions C58_tuple_swap.
Example C58_swap_example : tuple_swap [1; 2; 3] [4; 5; 6] = ([4; 5; 6], [1; 2; 3]).
Proof. reflexivity. Qed.
