(** Proofs about the reports of the kernel. *)
From Coq Require Import ZArith Lia ZifyBool ZifyNat ZifyN String Ascii.
From stdpp Require Import gmap.
From Verif Require Import Base StringModel StringSpec StringProofs PrintfModel PrintfSpec PrintfProofs PrintfLoopProofs VesaModel VesaSpec VesaProofs
  ConsoleModel ConsoleSpec ConsoleProofs ConsolePrintf ConsoleReports.
Local Open Scope Z_scope.
Local Open Scope outcome_scope.

Definition name_ok (s : string) : bool := forallb (fun c => 32 <=? c)%N (bytes s) && (length (bytes s) <=? 29)%nat.
Lemma exceptions_ok n : name_ok (exceptions n) = true.
Proof.
  unfold exceptions. generalize (N.to_nat n) as i. intros i. do 33 (destruct i as [|i]; [vm_compute; reflexivity|]). destruct i; vm_compute; reflexivity.
Qed.
Lemma fmt_fault1 : bytes "Exception %ul %s occured" ++ newline = unparse (lit "Exception " ++ [ul] ++ lit " " ++ [str] ++ lit " occured" ++ [Lit 10%N]).
Proof. reflexivity. Qed.
Lemma fmt_fault2 : bytes "error_code = %ul rip = %xl rflags = %ul cs = %ul rsp = %xl ss = %ul" ++ newline =
  unparse (lit "error_code = " ++ [ul] ++ lit " rip = " ++ [xl] ++ lit " rflags = " ++ [ul] ++ lit " cs = " ++ [ul] ++ lit " rsp = " ++ [xl] ++ lit " ss = " ++ [ul] ++ [Lit 10%N]).
Proof. reflexivity. Qed.
Ltac wf_fmt := repeat apply Forall_app_2; try (apply wf_lit; reflexivity); try (constructor; [|constructor]);
  first [exact wf_ul|exact wf_xl|exact wf_str|split; discriminate].
Ltac texty_line := repeat apply Forall_app_2; try (apply texty_bytes; reflexivity); try assumption; try (eapply numeral_texty; eassumption).
Ltac renders_line := repeat first
  [ eapply renders_app | apply renders_lits | (apply renders_ul; eassumption) | (apply renders_xl; eassumption) | (apply renders_str; eassumption) | (apply (renders_lits _ [10%N])) ].
Ltac decimal := match goal with |- is_decimal _ _ => eexists; split; [eassumption|reflexivity] | |- is_hex _ _ => eexists; split; [eassumption|reflexivity] end.

Lemma fault_printed m0 buf ex r k y : (0 < buf)%N -> (buf + 1024 < 2 ^ 64)%N -> ready m0 buf (k_mem k) ->
  string_at m0 (ex (error_no r)) (bytes (exceptions (error_no r))) ->
  (error_no r < 32)%N -> (error_code r < 2 ^ 64)%N -> (f_rip r < 2 ^ 64)%N -> (f_rflags r < 2 ^ 64)%N -> (f_cs r < 2 ^ 64)%N ->
  (f_rsp r < 2 ^ 64)%N -> (f_ss r < 2 ^ 64)%N ->
  xpos (k_screen k) = 0 -> ypos (k_screen k) = y -> 0 <= y <= 54 ->
  exists lines k', fault_report (error_no r) (error_code r) (f_rip r) (f_rflags r) (f_cs r) (f_rsp r) (f_ss r) (exceptions (error_no r)) lines /\
    fault_handler ex buf r k = Ok k' /\ ready m0 buf (k_mem k') /\ shows_lines font (k_screen k) y lines (k_screen k').
Proof.
  intros Hb Hb2 Hm Hex Hno Hcode Hip Hfl Hcs Hsp Hss Hx Hy Hy0.
  destruct (number 10 (error_no r) ltac:(lia) ltac:(auto)) as (a & A & La).
  destruct (number 10 (error_code r) Hcode ltac:(auto)) as (b & B & Lb).
  destruct (number 16 (f_rip r) Hip ltac:(auto)) as (c & C & Lc).
  destruct (number 10 (f_rflags r) Hfl ltac:(auto)) as (d & D & Ld).
  destruct (number 10 (f_cs r) Hcs ltac:(auto)) as (e & E & Le).
  destruct (number 16 (f_rsp r) Hsp ltac:(auto)) as (f & F & Lf).
  destruct (number 10 (f_ss r) Hss ltac:(auto)) as (g & G & Lg).
  pose proof (exceptions_ok (error_no r)) as No. apply andb_true_iff in No as [No1 No2]. apply texty_bytes in No1.
  pose proof Hex as Hs. assert (Hno' : (error_no r < 2 ^ 64)%N) by lia.
  unfold fault_handler. replace (error_no r <? 32)%N with true by lia. rewrite fmt_fault1, fmt_fault2.
  set (c1 := {| l_fmt := lit "Exception " ++ [ul] ++ lit " " ++ [str] ++ lit " occured" ++ [Lit 10%N];
    l_args := [A64 (error_no r); APtr (ex (error_no r))];
    l_line := bytes "Exception " ++ a ++ bytes " " ++ bytes (exceptions (error_no r)) ++ bytes " occured" |}).
  set (c2 := {| l_fmt := lit "error_code = " ++ [ul] ++ lit " rip = " ++ [xl] ++ lit " rflags = " ++ [ul] ++ lit " cs = " ++ [ul] ++ lit " rsp = " ++ [xl] ++ lit " ss = " ++ [ul] ++ [Lit 10%N];
    l_args := [A64 (error_code r); A64 (f_rip r); A64 (f_rflags r); A64 (f_cs r); A64 (f_rsp r); A64 (f_ss r)];
    l_line := bytes "error_code = " ++ b ++ bytes " rip = " ++ c ++ bytes " rflags = " ++ d ++ bytes " cs = " ++ e ++ bytes " rsp = " ++ f ++ bytes " ss = " ++ g |}).
  assert (R1 : line_right m0 c1).
  { unfold c1. split; [|split; [|split] ]; cbn [l_fmt l_args l_line].
    - wf_fmt.
    - rewrite <- !app_assoc. renders_line.
    - texty_line.
    - rewrite !app_length. change (length (bytes "Exception ")) with 10%nat. change (length (bytes " ")) with 1%nat. change (length (bytes " occured")) with 8%nat. lia. }
  assert (R2 : line_right m0 c2).
  { unfold c2. split; [|split; [|split] ]; cbn [l_fmt l_args l_line].
    - wf_fmt.
    - rewrite <- !app_assoc. renders_line.
    - texty_line.
    - rewrite !app_length. change (length (bytes "error_code = ")) with 13%nat. change (length (bytes " rip = ")) with 7%nat. change (length (bytes " rflags = ")) with 10%nat.
      change (length (bytes " cs = ")) with 6%nat. change (length (bytes " rsp = ")) with 7%nat. change (length (bytes " ss = ")) with 6%nat. lia. }
  destruct (lines_printed m0 buf [c1; c2] k y) as (k' & P & R & S); [repeat (apply Forall_cons_2; [assumption|]); apply Forall_nil_2|exact Hb|exact Hb2|exact Hm|exact Hx|exact Hy|lia|cbn [length]; lia|].
  exists (map (fun c => map Z.of_N (l_line c)) [c1; c2]), k'. split; [|split; [exact P|split; [exact R|exact S] ] ].
  exists (map Z.of_N a), (map Z.of_N b), (map Z.of_N c), (map Z.of_N d), (map Z.of_N e), (map Z.of_N f), (map Z.of_N g).
  repeat (split; [decimal|]). cbn [map]. unfold c1, c2. cbn [l_line]. rewrite !map_app, <- !letters_bytes. reflexivity.
Qed.

Lemma fmt_boot1 : bytes "init Interrupt" ++ newline = unparse (lit "init Interrupt" ++ [Lit 10%N]).
Proof. reflexivity. Qed.
Lemma fmt_boot2 : bytes "e820 size = %ul total avalible memory = %ulMB" ++ newline = unparse (lit "e820 size = " ++ [ul] ++ lit " total avalible memory = " ++ [ul] ++ lit "MB" ++ [Lit 10%N]).
Proof. reflexivity. Qed.
Lemma fmt_boot3 : bytes "A::A()" ++ newline = unparse (lit "A::A()" ++ [Lit 10%N]).
Proof. reflexivity. Qed.
Lemma fmt_boot4 : bytes "*(&PDE + 2) = %xl" ++ newline = unparse (lit "*(&PDE + 2) = " ++ [xl] ++ [Lit 10%N]).
Proof. reflexivity. Qed.
Lemma fmt_boot5 : bytes "page read only" ++ newline = unparse (lit "page read only" ++ [Lit 10%N]).
Proof. reflexivity. Qed.
Lemma boot_printed m0 buf size available pde k : (0 < buf)%N -> (buf + 1024 < 2 ^ 64)%N -> ready m0 buf (k_mem k) ->
  (size < 2 ^ 64)%N -> (available < 2 ^ 64)%N -> (pde < 2 ^ 64)%N ->
  exists lines k', boot_report size (available / 2 ^ 20) pde lines /\
    boot_prints buf size available pde k = Ok k' /\ ready m0 buf (k_mem k') /\ shows_lines font (k_screen k) 0 lines (k_screen k').
Proof.
  intros Hb Hb2 Hm H1 H2 H3. assert (H2' : (available / 2 ^ 20 < 2 ^ 64)%N).
  { eapply N.le_lt_trans; [|exact H2]. apply N.div_le_upper_bound; [discriminate|]. rewrite <- (N.mul_1_l available) at 1. apply N.mul_le_mono_r. discriminate. }
  destruct (number 10 size H1 ltac:(auto)) as (a & A & La).
  destruct (number 10 (available / 2 ^ 20) H2' ltac:(auto)) as (b & B & Lb).
  destruct (number 16 pde H3 ltac:(auto)) as (c & C & Lc).
  unfold boot_prints. rewrite fmt_boot1, fmt_boot2, fmt_boot3, fmt_boot4, fmt_boot5.
  set (c1 := {| l_fmt := lit "init Interrupt" ++ [Lit 10%N]; l_args := []; l_line := bytes "init Interrupt" |}).
  set (c2 := {| l_fmt := lit "e820 size = " ++ [ul] ++ lit " total avalible memory = " ++ [ul] ++ lit "MB" ++ [Lit 10%N];
    l_args := [A64 size; A64 (available / 2 ^ 20)]; l_line := bytes "e820 size = " ++ a ++ bytes " total avalible memory = " ++ b ++ bytes "MB" |}).
  set (c3 := {| l_fmt := lit "A::A()" ++ [Lit 10%N]; l_args := []; l_line := bytes "A::A()" |}).
  set (c4 := {| l_fmt := lit "*(&PDE + 2) = " ++ [xl] ++ [Lit 10%N]; l_args := [A64 pde]; l_line := bytes "*(&PDE + 2) = " ++ c |}).
  set (c5 := {| l_fmt := lit "page read only" ++ [Lit 10%N]; l_args := []; l_line := bytes "page read only" |}).
  assert (R1 : line_right m0 c1) by (unfold c1; split; [|split; [|split] ]; cbn [l_fmt l_args l_line]; [wf_fmt|renders_line|texty_line|cbn; lia]).
  assert (R3 : line_right m0 c3) by (unfold c3; split; [|split; [|split] ]; cbn [l_fmt l_args l_line]; [wf_fmt|renders_line|texty_line|cbn; lia]).
  assert (R5 : line_right m0 c5) by (unfold c5; split; [|split; [|split] ]; cbn [l_fmt l_args l_line]; [wf_fmt|renders_line|texty_line|cbn; lia]).
  assert (R2 : line_right m0 c2).
  { unfold c2. split; [|split; [|split] ]; cbn [l_fmt l_args l_line]; [wf_fmt|rewrite <- !app_assoc; renders_line|texty_line|].
    rewrite !app_length. change (length (bytes "e820 size = ")) with 12%nat. change (length (bytes " total avalible memory = ")) with 25%nat. change (length (bytes "MB")) with 2%nat. lia. }
  assert (R4 : line_right m0 c4).
  { unfold c4. split; [|split; [|split] ]; cbn [l_fmt l_args l_line]; [wf_fmt|rewrite <- !app_assoc; renders_line|texty_line|].
    rewrite !app_length. change (length (bytes "*(&PDE + 2) = ")) with 14%nat. lia. }
  destruct (lines_printed m0 buf [c1; c2; c3; c4; c5] {| k_mem := k_mem k; k_screen := vesa_init (k_screen k) |} 0) as (k' & P & R & S);
    [repeat (apply Forall_cons_2; [assumption|]); apply Forall_nil_2|exact Hb|exact Hb2|exact Hm|reflexivity|reflexivity|lia|cbn [length]; lia|].
  exists (map (fun c => map Z.of_N (l_line c)) [c1; c2; c3; c4; c5]), k'. split; [|split; [exact P|split; [exact R|exact S] ] ].
  exists (map Z.of_N a), (map Z.of_N b), (map Z.of_N c). repeat (split; [decimal|]).
  cbn [map]. unfold c1, c2, c3, c4, c5. cbn [l_line]. rewrite !map_app, <- !letters_bytes. reflexivity.
Qed.
