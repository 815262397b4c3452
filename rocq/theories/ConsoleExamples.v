(** Concrete cases for the console. *)
From Coq Require Import ZArith Lia ZifyBool ZifyNat ZifyN String Ascii.
From stdpp Require Import gmap.
From Verif Require Import Base E820Model StubModel StubSpec StubExamples PrintfModel PrintfSpec PrintfExamples StringSpec VesaModel VesaSpec HwExamples ConsoleModel ConsoleSpec ConsoleProofs ConsolePrintf ConsoleReports ConsoleMessages ConsoleFault.
Local Open Scope N_scope.

Fixpoint put_list (l : list N) (a : N) (m : gmap N N) : gmap N N :=
  match l with [] => m | c :: l => <[a := c]> (put_list l (a + 1) m) end.
Lemma put_list_lookup l : forall a m x, put_list l a m !! x = if (a <=? x) && (x <? a + N.of_nat (length l)) then l !! N.to_nat (x - a) else m !! x.
Proof.
  induction l as [|c l IH]; intros a m x; cbn [put_list length].
  - replace ((a <=? x) && (x <? a + N.of_nat 0)) with false by lia. reflexivity.
  - destruct (N.eqb_spec a x) as [<-|Hx].
    + rewrite lookup_insert. replace ((a <=? a) && (a <? a + N.of_nat (S (length l)))) with true by lia. replace (N.to_nat (a - a)) with 0%nat by lia. reflexivity.
    + rewrite lookup_insert_ne, IH by lia.
      replace ((a <=? x) && (x <? a + N.of_nat (S (length l)))) with ((a + 1 <=? x) && (x <? a + 1 + N.of_nat (length l))) by lia.
      destruct (_ && _) eqn:E; [|reflexivity]. replace (N.to_nat (x - a)) with (S (N.to_nat (x - (a + 1)))) by lia. reflexivity.
Qed.

(** "Page Fault" at 2000, the buffer at 100. *)
Definition demo_strings : gmap N N := put_list (bytes "Page Fault" ++ [0]) 2000 ∅.
Definition demo_memory : gmap N N := put_list (replicate 1024 0) 100 demo_strings.
Definition demo_kernel : kernel := {| k_mem := demo_memory; k_screen := blank_screen |}.
Lemma demo_ready : ready demo_strings 100 demo_memory.
Proof.
  split.
  - intros i Hi. unfold demo_memory. rewrite put_list_lookup, replicate_length. replace ((100 <=? 100 + i) && _) with true by lia.
    exists 0. apply lookup_replicate. split; [reflexivity|]. lia.
  - intros x v Hx. assert (2000 <= x). { unfold demo_strings in Hx. rewrite put_list_lookup in Hx. destruct (_ && _) eqn:E in Hx; [lia|discriminate Hx]. }
    split; [|lia]. unfold demo_memory. rewrite put_list_lookup, replicate_length. replace ((100 <=? x) && _) with false by lia. exact Hx.
Qed.
Lemma demo_name : string_at demo_strings 2000 (bytes (exception_name 14)).
Proof.
  split; [repeat constructor; discriminate|]. intros i c Hi. unfold demo_strings. rewrite put_list_lookup.
  pose proof (lookup_lt_Some _ _ _ Hi) as Hl. change (length (bytes "Page Fault" ++ [0])) with 11%nat in *. change (length (bytes (exception_name 14) ++ [0])) with 11%nat in Hl.
  replace ((2000 <=? 2000 + N.of_nat i) && _) with true by lia. replace (N.to_nat (2000 + N.of_nat i - 2000)) with i by lia. exact Hi.
Qed.

(** printf("a=%ul %s\n", 42, 2000) *)
Definition demo_call : call :=
  {| c_fmt := lit "a=" ++ [ul] ++ lit " " ++ [str] ++ map Lit newline; c_args := [A64 42; APtr 2000];
     c_out := bytes "a=" ++ bytes "42" ++ bytes " " ++ bytes "Page Fault" ++ newline |}.
Lemma demo_right : right_call demo_strings demo_call.
Proof.
  split; [|split].
  - cbn [c_fmt demo_call]. repeat (apply Forall_app; split).
    + apply wf_lit. reflexivity.
    + apply Forall_cons_2; [apply wf_ul|apply Forall_nil_2].
    + apply wf_lit. reflexivity.
    + apply Forall_cons_2; [apply wf_str|apply Forall_nil_2].
    + apply Forall_cons_2; [split; discriminate|apply Forall_nil_2].
  - exists []. cbn [c_fmt c_args c_out demo_call].
    eapply renders_app; [apply renders_lits|]. eapply renders_app.
    { apply renders_ul; [reflexivity|]. split; [reflexivity|]. split; [discriminate|]. intros cs' H. discriminate. }
    eapply renders_app; [apply renders_lits|]. eapply renders_app; [apply renders_str, demo_name|apply renders_lits].
  - cbn. lia.
Qed.
Lemma demo_text : all_text [demo_call] = letters "a=42 Page Fault" ++ [10%Z].
Proof. reflexivity. Qed.

(** 1030 letters x and after the buffer "!" *)
Definition long_format : list directive := replicate 1030 (Lit 120).
Definition long_memory : gmap N N := put_list (replicate 1024 0) 100 (put_list [33; 0] 1124 ∅).
Definition long_kernel : kernel := {| k_mem := long_memory; k_screen := blank_screen |}.
Lemma long_case : Forall wf_directive long_format /\ renders_all ∅ long_format [] (replicate 1030 120) [] /\ ready ∅ 100 long_memory /\
  string_at long_memory (100 + 1024) [33] /\ stays (map Z.of_N (take 1024 (replicate 1030 120) ++ [33])) 0 0 = true.
Proof.
  split; [|split; [|split; [|split]]].
  - apply Forall_replicate. split; discriminate.
  - unfold long_format. rewrite <- fmap_replicate. apply renders_lits.
  - split; [|intros x v Hx; rewrite lookup_empty in Hx; discriminate].
    intros i Hi. unfold long_memory. rewrite put_list_lookup, replicate_length. replace ((100 <=? 100 + i) && _) with true by lia.
    exists 0. apply lookup_replicate. split; [reflexivity|]. lia.
  - split; [repeat constructor; discriminate|]. intros i c Hi. unfold long_memory. rewrite put_list_lookup, replicate_length.
    replace ((100 <=? 100 + 1024 + N.of_nat i) && _) with false by lia. rewrite put_list_lookup.
    pose proof (lookup_lt_Some _ _ _ Hi) as Hl. cbn [app length] in *.
    replace ((1124 <=? 100 + 1024 + N.of_nat i) && _) with true by lia. replace (N.to_nat (100 + 1024 + N.of_nat i - 1124)) with i by lia. exact Hi.
  - vm_compute. reflexivity.
Qed.
Lemma long_nonzero : Forall (fun c => c <> 0) (take 1024 (replicate 1030 120)).
Proof. apply Forall_take, Forall_replicate. discriminate. Qed.

(** The registers of the demonstration machine are words. *)
Lemma demo_words : word 6 /\ word (rip demo_machine) /\ word (cs demo_machine) /\ word (rflags demo_machine) /\ word (rsp demo_machine) /\ word (ss demo_machine).
Proof. unfold word. repeat split; vm_compute; congruence. Qed.
Lemma lines_ok_example : Forall line_ok [letters "first"; letters ""; letters "third"] /\ page [letters "first"; letters ""; letters "third"] 361 = [104%Z].
Proof.
  assert (H : forall s, forallb (fun c => negb (c =? 10)%Z && negb (c =? 9)%Z) (letters s) = true -> (length (letters s) < 180)%nat -> line_ok (letters s)).
  { intros s H Hl. split; [|exact Hl]. rewrite forallb_forall in H. apply Forall_forall. intros c Hc. apply elem_of_list_In in Hc. apply H in Hc. unfold plain. lia. }
  split; [|reflexivity]. repeat (apply Forall_cons_2; [apply H; [reflexivity|cbn; lia]|]). apply Forall_nil_2.
Qed.
