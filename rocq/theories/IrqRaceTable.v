(** Proofs for IrqRaceModel.v: interrupts while handlers are registered. *)
From Coq Require Import NArith Bool List Lia ZifyBool ZifyN.
From Verif Require Import Base IrqRaceModel IrqRaceSpec.
Import ListNotations.
Local Open Scope N_scope.

Section Table.
Variable all : list table_op.
Hypothesis real : real_handlers all.
Variable strict : bool.
Notation machine := (machine irq_table bool).
Notation instr := (instr irq_table bool).

Definition call_ok (x : N * N * N) : Prop :=
  match x with (i, h, d) => exists d', In (Register i h d') all /\ (d = d' \/ strict = false /\ d = 0) end.
(** An entry is free and blank, or as registered. *)
Definition fits (t : irq_table) (i : N) : Prop :=
  (entry_handler t i = 0 /\ entry_data t i = 0) \/ In (Register i (entry_handler t i) (entry_data t i)) all.
Definition handled (t : irq_table) : Prop := Forall call_ok (called t).
Definition step2 (i d : N) : instr := Work (fun x => Ok (if snd x : bool then set_data i d (fst x) else fst x, snd x)).
Definition step1 (i h : N) : instr := Work (fun x => Ok (if snd x : bool then set_handler i h (fst x) else fst x, snd x)).

(** Where the main program is. *)
Inductive at_ (t : irq_table) (fl : bool) (l : bool) : list instr -> Prop :=
| A0 os : incl os all -> (strict = true -> careful fl os = true) -> (forall j, fits t j) -> at_ t fl l (ops_code os)
| AR1 i h d os : In (Register i h d) all -> incl os all -> (strict = true -> fl = false /\ careful fl os = true) ->
    (forall j, fits t j) -> (l = true -> entry_handler t i = 0) ->
    at_ t fl l (step1 i h :: step2 i d :: ops_code os)
| AR2 i h d os : In (Register i h d) all -> incl os all -> (strict = true -> fl = false /\ careful fl os = true) ->
    (forall j, l = false \/ j <> i -> fits t j) -> (l = true -> entry_handler t i = h /\ entry_data t i = 0) ->
    at_ t fl l (step2 i d :: ops_code os)
| AU1 i os : incl os all -> (strict = true -> careful fl os = true) -> (forall j, fits t j) ->
    at_ t fl l (step1 i 0 :: step2 i 0 :: ops_code os)
| AU2 i os : incl os all -> (strict = true -> careful fl os = true) -> (forall j, l = false \/ j <> i -> fits t j) ->
    (l = true -> entry_handler t i = 0) -> at_ t fl l (step2 i 0 :: ops_code os).

Definition suffix (e : regs) (n : nat) : list instr := skipn n (call_entry e).
Inductive inv (m : machine) : Prop :=
| IMain : suspended m = [] -> at_ (shared m) (iflag m) (local m) (code m) -> handled (shared m) -> inv m
| IIrq e n l g c : suspended m = [(l, true, g, c)] -> at_ (shared m) true l c -> handled (shared m) -> iflag m = false ->
    (n <= 4)%nat -> code m = suffix e n -> guards m = (if Nat.eqb n 0 || Nat.eqb n 4 then [] else [false]) -> inv m.

Lemma at_called t t' fl l c : entry_handler t' = entry_handler t -> entry_data t' = entry_data t -> at_ t fl l c -> at_ t' fl l c.
Proof.
  intros E1 E2. destruct 1; [apply A0|apply (AR1 _ _ _ _ h)|apply (AR2 _ _ _ _ h)|apply AU1|apply AU2]; auto; unfold fits in *; rewrite ?E1, ?E2; auto.
Qed.
Lemma at_call t l c i : at_ t true l c -> entry_handler t i <> 0 -> call_ok (i, entry_handler t i, entry_data t i).
Proof.
  intros H Hh. assert (F : fits t i -> call_ok (i, entry_handler t i, entry_data t i)).
  { intros [[E _]|Hin]; [congruence|]. exists (entry_data t i). auto. }
  destruct H as [os Hi Hc Hf|i0 h d os Hr Hi Hc Hf Hl|i0 h d os Hr Hi Hc Hf Hl|i0 os Hi Hc Hf|i0 os Hi Hc Hf Hl]; auto.
  - destruct l; [|auto]. destruct (N.eqb_spec i i0) as [->|Hne]; [|auto]. destruct (Hl eq_refl) as [E1 E2]. exists d. rewrite E1, E2.
    split; [exact Hr|]. right. split; [|reflexivity]. destruct strict; [|reflexivity]. destruct (Hc eq_refl). discriminate.
  - destruct l; [|auto]. destruct (N.eqb_spec i i0) as [->|Hne]; [|auto]. rewrite (Hl eq_refl) in Hh. congruence.
Qed.
Lemma op_at t fl l l' o os : incl (o :: os) all -> (strict = true -> careful fl (o :: os) = true) -> (forall j, fits t j) ->
  match o with
  | Register i h d => l' = (i <? 16) && (entry_handler t i =? 0) -> at_ t fl l' (step1 i h :: step2 i d :: ops_code os)
  | UnRegister i h => l' = (i <? 16) && (entry_handler t i =? h) -> at_ t fl l' (step1 i 0 :: step2 i 0 :: ops_code os)
  | TEnable => at_ t true l (ops_code os)
  | TDisable => at_ t false l (ops_code os)
  end.
Proof.
  intros Hi Hc Hf. assert (Hi' : incl os all) by (intros x Hx; apply Hi; right; exact Hx).
  destruct o as [i h d|i h| |]; cbn in Hc.
  - intros ->. apply AR1; auto.
    + apply Hi. left. reflexivity.
    + intros Hs. specialize (Hc Hs). apply andb_true_iff in Hc. destruct Hc as [Hc1 Hc2]. destruct fl; [discriminate|auto].
    + intros Hl. apply andb_true_iff in Hl. destruct Hl as [_ Hl]. apply N.eqb_eq in Hl. exact Hl.
  - intros ->. apply AU1; auto.
  - apply A0; auto.
  - apply A0; auto.
Qed.
Lemma fits_data t i h d j : In (Register i h d) all -> entry_handler t i = h -> (j <> i -> fits t j) -> fits (set_data i d t) j.
Proof.
  intros Hr Hh Hj. unfold fits in *. cbn. destruct (N.eqb_spec j i) as [->|Hne]; [right; rewrite Hh; exact Hr|auto].
Qed.
Lemma fits_clear t i j : entry_handler t i = 0 -> (j <> i -> fits t j) -> fits (set_data i 0 t) j.
Proof. intros Hh Hj. unfold fits in *. cbn. destruct (N.eqb_spec j i) as [->|Hne]; [left; auto|auto]. Qed.
Lemma fits_other t i h j : j <> i -> fits t j -> fits (set_handler i h t) j.
Proof. intros Hne. unfold fits. cbn. destruct (N.eqb_spec j i); [congruence|auto]. Qed.

Lemma step_main m : suspended m = [] -> at_ (shared m) (iflag m) (local m) (code m) -> handled (shared m) ->
  exists m', exec1 m = Ok m' /\ inv m'.
Proof.
  intros Hs Ha Hh. unfold exec1.
  inversion Ha as [os Hi Hc Hf E|i h d os Hr Hi Hc Hf Hl E|i h d os Hr Hi Hc Hf Hl E|i os Hi Hc Hf E|i os Hi Hc Hf Hl E]; clear Ha.
  - destruct os as [|o os]; cbn.
    + rewrite Hs. eexists. split; [reflexivity|]. apply IMain; [exact Hs| |exact Hh]. rewrite <- E. apply A0; auto.
    + pose proof (fun l' => op_at (shared m) (iflag m) (local m) l' o os Hi Hc Hf) as Ho.
      destruct o as [i h d|i h| |]; cbn; (eexists; split; [reflexivity|]); apply IMain; cbn; auto.
  - cbn. eexists. split; [reflexivity|]. apply IMain; cbn; [exact Hs| |destruct (local m); exact Hh].
    apply (AR2 _ _ _ i h); auto.
    + destruct (local m); intros j [Hj|Hj]; try discriminate; auto using fits_other.
    + intros E1. rewrite E1. cbn. rewrite N.eqb_refl. split; [reflexivity|].
      destruct (Hf i) as [[_ ?]|Hin]; [assumption|]. rewrite (Hl E1) in Hin. exfalso. exact (real _ _ _ Hin eq_refl).
  - cbn. eexists. split; [reflexivity|]. apply IMain; cbn; [exact Hs| |destruct (local m); exact Hh].
    apply A0; [exact Hi|intros Hst; apply Hc; exact Hst|].
    intros j. destruct (local m); [|auto]. destruct (Hl eq_refl) as [E1 E2]. apply (fits_data _ i h); auto.
  - cbn. eexists. split; [reflexivity|]. apply IMain; cbn; [exact Hs| |destruct (local m); exact Hh].
    apply AU2; auto.
    + destruct (local m); intros j [Hj|Hj]; try discriminate; auto using fits_other.
    + intros E1. rewrite E1. cbn. rewrite N.eqb_refl. reflexivity.
  - cbn. eexists. split; [reflexivity|]. apply IMain; cbn; [exact Hs| |destruct (local m); exact Hh].
    apply A0; auto. intros j. destruct (local m); [|auto]. apply fits_clear; auto.
Qed.
Lemma step_inv m : inv m -> exists m', exec1 m = Ok m' /\ inv m'.
Proof.
  destruct 1 as [Hs Ha Hh|e n l g c Hs Ha Hh Hf Hn Hc Hg]; [apply step_main; assumption|].
  destruct n as [|[|[|[|[|n] ] ] ] ]; [| | | | |lia]; cbn in Hc, Hg; unfold exec1; rewrite Hc, ?Hg.
  - eexists. split; [reflexivity|]. apply (IIrq _ e 1 l g c); cbn; auto. congruence.
  - eexists. split; [reflexivity|]. apply (IIrq _ e 2 l g c); cbn; auto.
  - cbn. eexists. split; [reflexivity|]. apply (IIrq _ e 3 l g c); cbn; auto.
    + destruct (_ =? 0); [exact Ha|]. eapply at_called; [| |exact Ha]; reflexivity.
    + destruct (N.eqb_spec (entry_handler (shared m) (r_code e)) 0) as [|Hne]; [exact Hh|]. unfold handled. cbn.
      apply Forall_app. split; [exact Hh|]. constructor; [|constructor]. exact (at_call _ _ _ _ Ha Hne).
  - eexists. split; [reflexivity|]. apply (IIrq _ e 4 l g c); cbn; auto.
  - rewrite Hs. eexists. split; [reflexivity|]. apply IMain; cbn; auto.
Qed.
Lemma interrupt_inv e m : inv m -> inv (interrupt call_entry e m).
Proof.
  unfold interrupt. destruct (iflag m) eqn:Hfl; [|auto].
  destruct 1 as [Hs Ha Hh|e' n l g c Hs Ha Hh Hf Hn Hc Hg]; [|congruence].
  apply (IIrq _ e 0 (local m) (guards m) (code m)); cbn; auto; try lia; [rewrite Hs; reflexivity|rewrite <- Hfl; exact Ha].
Qed.
Lemma run_inv sched : forall m, inv m -> exists m', run call_entry sched m = Ok m' /\ inv m'.
Proof.
  induction sched as [|[e|] sched IH]; intros m Hm; cbn.
  - eauto.
  - apply IH, interrupt_inv, Hm.
  - destruct (step_inv m Hm) as (m1 & E & H1). rewrite E. cbn. apply IH, H1.
Qed.
Lemma run_calls fl l sched : (strict = true -> careful fl all = true) ->
  exists m, run call_entry sched (start empty_table l fl (ops_code all)) = Ok m /\ Forall call_ok (called (shared m)).
Proof.
  intros Hc. destruct (run_inv sched (start empty_table l fl (ops_code all))) as (m & E & Hi).
  { apply IMain; [reflexivity| |constructor]. apply A0; [apply incl_refl|exact Hc|]. intros j. left. split; reflexivity. }
  exists m. split; [exact E|]. destruct Hi; assumption.
Qed.
End Table.

Lemma own_data os fl l sched : real_handlers os -> careful fl os = true ->
  exists m, run call_entry sched (start empty_table l fl (ops_code os)) = Ok m /\
    forall i h d, In (i, h, d) (called (shared m)) -> In (Register i h d) os.
Proof.
  intros Hr Hc. destruct (run_calls os Hr true fl l sched (fun _ => Hc)) as (m & E & F). exists m. split; [exact E|].
  intros i h d Hin. rewrite Forall_forall in F. destruct (F _ Hin) as (d' & Hd & [->|[? _]]); [exact Hd|discriminate].
Qed.
Lemma own_data_or_none os fl l sched : real_handlers os ->
  exists m, run call_entry sched (start empty_table l fl (ops_code os)) = Ok m /\
    forall i h d, In (i, h, d) (called (shared m)) -> In (Register i h d) os \/ d = 0 /\ exists d', In (Register i h d') os.
Proof.
  intros Hr. destruct (run_calls os Hr false fl l sched) as (m & E & F); [discriminate|]. exists m. split; [exact E|].
  intros i h d Hin. rewrite Forall_forall in F. destruct (F _ Hin) as (d' & Hd & [->|[_ ->]]); [left; exact Hd|right; eauto].
Qed.
Lemma run_none entry sched (m m' : machine irq_table bool) : exec1 m = Ok m' -> run entry (None :: sched) m = run entry sched m'.
Proof. intros E. cbn [run]. rewrite E. reflexivity. Qed.
Lemma run_some entry sched e (m m' : machine irq_table bool) : interrupt entry e m = m' -> run entry (Some e :: sched) m = run entry sched m'.
Proof. intros <-. reflexivity. Qed.
Lemma window i h d e l : i < 16 -> h <> 0 -> r_code e = i ->
  exists sched m, run call_entry sched (start empty_table l true (ops_code [Register i h d])) = Ok m /\ finished m = true /\
    called (shared m) = [(i, h, 0)] /\ entry_data (shared m) i = d.
Proof.
  intros Hi Hh He. exists [None; None; Some e; None; None; None; None; None; None].
  assert (E1 : (i <? 16) = true) by lia. assert (E2 : (h =? 0) = false) by lia.
  set (t1 := set_handler i h empty_table).
  set (t2 := {| entry_handler := entry_handler t1; entry_data := entry_data t1; called := [(i, h, 0)] |}).
  set (rest := [step2 i d]).
  eexists. split.
  - rewrite (run_none _ _ _ {| shared := empty_table; local := true; iflag := true; guards := []; code := step1 i h :: rest; suspended := []; taken := [] |}).
    2:{ cbn -[N.ltb]. rewrite E1. reflexivity. }
    rewrite (run_none _ _ _ {| shared := t1; local := true; iflag := true; guards := []; code := rest; suspended := []; taken := [] |}) by reflexivity.
    rewrite (run_some _ _ _ _ {| shared := t1; local := true; iflag := false; guards := []; code := suffix e 0; suspended := [(true, true, [], rest)]; taken := [e] |}) by reflexivity.
    rewrite (run_none _ _ _ {| shared := t1; local := true; iflag := false; guards := [false]; code := suffix e 1; suspended := [(true, true, [], rest)]; taken := [e] |}) by reflexivity.
    rewrite (run_none _ _ _ {| shared := t1; local := true; iflag := false; guards := [false]; code := suffix e 2; suspended := [(true, true, [], rest)]; taken := [e] |}) by reflexivity.
    rewrite (run_none _ _ _ {| shared := t2; local := true; iflag := false; guards := [false]; code := suffix e 3; suspended := [(true, true, [], rest)]; taken := [e] |}).
    2:{ cbn -[N.eqb t1]. cbn -[N.eqb]. rewrite He, N.eqb_refl, E2. reflexivity. }
    rewrite (run_none _ _ _ {| shared := t2; local := true; iflag := false; guards := []; code := []; suspended := [(true, true, [], rest)]; taken := [e] |}) by reflexivity.
    rewrite (run_none _ _ _ {| shared := t2; local := true; iflag := true; guards := []; code := rest; suspended := []; taken := [e] |}) by reflexivity.
    rewrite (run_none _ _ _ {| shared := set_data i d t2; local := true; iflag := true; guards := []; code := []; suspended := []; taken := [e] |}) by reflexivity.
    reflexivity.
  - cbn. rewrite N.eqb_refl. auto.
Qed.
