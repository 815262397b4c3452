(** From the run of main to the last screen. *)
From Coq Require Import ZArith Lia ZifyBool ZifyNat ZifyN String Ascii.
From stdpp Require Import gmap.
From Verif Require Import Base E820Model E820Proofs StubModel StubSpec StubProofs PrintfModel PrintfSpec VesaModel VesaSpec VesaProofs
  ConsoleModel ConsoleSpec ConsoleProofs ConsolePrintf ConsoleReports ConsoleMessages ConsoleFault LastModel LastSpec LastRun.
Local Open Scope Z_scope.

Lemma page_app l1 l2 n : 0 <= n -> page (l1 ++ l2) n = if n <? 180 * Z.of_nat (length l1) then page l1 n else page l2 (n - 180 * Z.of_nat (length l1)).
Proof.
  intros Hn. unfold page. destruct (n <? 180 * Z.of_nat (length l1)) eqn:E.
  - rewrite lookup_app_l by lia. reflexivity.
  - rewrite lookup_app_r by lia.
    replace (Z.to_nat ((n - 180 * Z.of_nat (length l1)) / 180)) with (Z.to_nat (n / 180) - length l1)%nat by lia.
    replace ((n - 180 * Z.of_nat (length l1)) mod 180) with (n mod 180) by lia. reflexivity.
Qed.
Lemma page_beyond l n : 180 * Z.of_nat (length l) <= n -> page l n = [].
Proof. intros H. unfold page. rewrite lookup_ge_None_2 by lia. reflexivity. Qed.
Lemma shows_app font b y l1 l2 s1 s2 : 0 <= y -> shows_lines font b y l1 s1 -> shows_lines font s1 (y + Z.of_nat (length l1)) l2 s2 ->
  shows_lines font b y (l1 ++ l2) s2.
Proof.
  intros Hy (_ & _ & P1) (X2 & Y2 & P2). split; [exact X2|]. split; [rewrite Y2, app_length; lia|].
  intros X Y H. rewrite P2, P1 by exact H. clear P1 P2. set (n := cell_of X Y).
  destruct (180 * y <=? n) eqn:E; cbn [andb].
  - rewrite page_app by lia. destruct (n - 180 * y <? 180 * Z.of_nat (length l1)) eqn:E2.
    + replace (180 * (y + Z.of_nat (length l1)) <=? n) with false by lia. reflexivity.
    + replace (180 * (y + Z.of_nat (length l1)) <=? n) with true by lia. cbn [andb]. rewrite (page_beyond l1) by lia. cbn [existsb].
      replace (n - 180 * y - 180 * Z.of_nat (length l1)) with (n - 180 * (y + Z.of_nat (length l1))) by lia. reflexivity.
  - replace (180 * (y + Z.of_nat (length l1)) <=? n) with false by lia. reflexivity.
Qed.
Lemma boot_lines size mb pde lines : boot_report size mb pde lines -> length lines = 5%nat.
Proof. intros (a & b & c & _ & _ & _ & ->). reflexivity. Qed.
Lemma fmt_value : bytes "*p = %ul" ++ newline = unparse (lit "*p = " ++ [ul] ++ [Lit 10%N]).
Proof. reflexivity. Qed.
Ltac numeral_two := vm_compute; repeat split; try discriminate; auto.
Lemma value_printed m0 buf k : (0 < buf)%N -> (buf + 1024 < 2 ^ 64)%N -> ready m0 buf (k_mem k) -> xpos (k_screen k) = 0 -> ypos (k_screen k) = 5 ->
  exists k', printfs buf [(bytes "*p = %ul" ++ newline, [A64 2])] k = Ok k' /\ shows_lines font (k_screen k) 5 [letters "*p = 2"] (k_screen k').
Proof.
  intros Hb Hb2 Hm Hx Hy. rewrite fmt_value.
  assert (B : numeral 10 false 2 [50%N]) by numeral_two.
  set (c := {| l_fmt := lit "*p = " ++ [ul] ++ [Lit 10%N]; l_args := [A64 2]; l_line := bytes "*p = " ++ [50%N] |}).
  assert (R : line_right m0 c).
  { unfold c. split; [|split; [|split] ]; cbn [l_fmt l_args l_line]; [wf_fmt| |texty_line|cbn; lia].
    rewrite <- !app_assoc. assert ((2 < 2 ^ 64)%N) by lia. renders_line. }
  destruct (lines_printed m0 buf [c] k 5) as (k' & P & _ & S); [constructor; [exact R|constructor]|exact Hb|exact Hb2|exact Hm|exact Hx|exact Hy|lia|cbn [length]; lia|].
  exists k'. split; [exact P|exact S].
Qed.

Local Open Scope N_scope.
Lemma last_shown h ra top t c m m0 buf ex bm k e0 e1 e2 e3 e4 e5 s :
  used_tables (pm s) -> tlb_true s -> Forall harmless (e0 ++ e1 ++ e2 ++ e3 ++ e4 ++ e5) ->
  word (rip m) -> word (rflags m) -> word (rsp m) -> cs m = 8%Z -> ss m = 16%Z ->
  0 < buf -> buf + 1024 < 2 ^ 64 -> ready m0 buf (k_mem k) -> string_at m0 (ex 14) (bytes "Page Fault") ->
  exists x lines k', main_end e0 e1 e2 e3 e4 e5 s = At x /\ screen_of h ra top t c m ex buf bm x k = Ok k' /\
    last_lines (slips e1 e2 e3 e4) (N.of_nat (length (fst (e820_init bm)))) (snd (e820_init bm) / 2 ^ 20)
      (Z.to_N (rip m)) (Z.to_N (rflags m)) (Z.to_N (rsp m)) lines /\
    shows_lines font (k_screen k) 0 lines (k_screen k').
Proof.
  intros U HT HF Wip Wfl Wsp Hcs Hss Hb Hb2 Hm Hex. destruct (main_ends e0 e1 e2 e3 e4 e5 s U HT HF) as (x & E & F).
  assert (S0 : snd (e820_init bm) < 2 ^ 64 /\ (length (fst (e820_init bm)) <= 20)%nat) by (apply (scan_small bm 20 e820_addr 0); lia).
  assert (S : exists first k1, boot_report (N.of_nat (length (fst (e820_init bm)))) (snd (e820_init bm) / 2 ^ 20) 0x4000e1 first /\
    boot_prints buf (N.of_nat (length (fst (e820_init bm)))) (snd (e820_init bm)) 0x4000e1 k = Ok k1 /\
    ready m0 buf (k_mem k1) /\ shows_lines font (k_screen k) 0 first (k_screen k1)).
  { apply boot_printed; [exact Hb|exact Hb2|exact Hm|lia|apply S0|reflexivity]. }
  destruct S as (first & k1 & B & P & M1 & S1). pose proof (boot_lines _ _ _ _ B) as L5.
  destruct S1 as (X1 & Y1 & R1). rewrite L5 in Y1.
  exists x. unfold screen_of. destruct (e820_init bm) as [entries available]. cbn [fst snd] in *.
  unfold final_ok in F. destruct x as [pde v s'|pde code s']; destruct F as (-> & -> & -> & _).
  - destruct (value_printed m0 buf k1 Hb Hb2 M1 X1 Y1) as (k2 & P2 & S2).
    exists (first ++ [letters "*p = 2"])%list, k2. split; [exact E|]. rewrite P. cbn [obind]. split; [exact P2|]. split.
    + exists first, [letters "*p = 2"]. auto.
    + eapply shows_app; [lia| |]. { split; [exact X1|]. split; [|exact R1]. rewrite Y1, L5. reflexivity. }
      rewrite L5. exact S2.
  - destruct (fault_shown h ra top t c 14 3 m m0 buf ex k1 5) as (rest & k2 & R2 & P2 & S2);
      try exact Wip; try exact Wfl; try exact Wsp; try exact Hb; try exact Hb2; try exact M1; try exact X1; try exact Y1; try exact Hex; try lia.
    { unfold word. lia. } { rewrite Hcs. unfold word. lia. } { rewrite Hss. unfold word. lia. }
    exists (first ++ rest)%list, k2. split; [exact E|]. rewrite P. cbn [obind]. split; [exact P2|]. split.
    + exists first, rest. split; [exact B|]. split; [reflexivity|]. rewrite Hcs, Hss in R2. exact R2.
    + eapply shows_app; [lia| |]. { split; [exact X1|]. split; [|exact R1]. rewrite Y1, L5. reflexivity. }
      rewrite L5. exact S2.
Qed.
