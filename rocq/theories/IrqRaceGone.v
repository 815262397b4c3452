(** Proofs for IrqRaceModel.v: a handler that was taken out is not called again. *)
From Coq Require Import NArith Bool List Lia ZifyBool ZifyN Arith.
From Verif Require Import Base IrqRaceModel IrqRaceSpec IrqRaceTable.
Import ListNotations.
Local Open Scope N_scope.

Section Gone.
Variables (i h : N) (rest : list (instr irq_table bool)).
Hypotheses (Hi : i < 16) (Hh : h <> 0).
Notation machine := (machine irq_table bool).
Notation instr := (instr irq_table bool).

(** An instruction that makes no calls and does not put [h] back. *)
Definition tame (x : instr) : Prop :=
  match x with
  | Work f => forall t l t' l', f (t, l) = Ok (t', l') -> called t' = called t /\ (entry_handler t i <> h -> entry_handler t' i <> h)
  | _ => True
  end.
Hypothesis Hrest : Forall tame rest.
Definition unregister : list instr := op_code (UnRegister i h).
(** Where the main program is. *)
Inductive place (t : irq_table) (l : bool) (c : list instr) : Prop :=
| Before pre : c = pre ++ unregister ++ rest -> place t l c
| Tested : c = step1 i 0 :: step2 i 0 :: rest -> l = (entry_handler t i =? h) -> place t l c
| After : Forall tame c -> entry_handler t i <> h -> (length c <= S (length rest))%nat -> place t l c.
Inductive state (P : irq_table -> bool -> list instr -> Prop) (m : machine) : Prop :=
| SMain : suspended m = [] -> P (shared m) (local m) (code m) -> state P m
| SIrq e n l g c : suspended m = [(l, true, g, c)] -> P (shared m) l c -> iflag m = false ->
    (n <= 4)%nat -> code m = suffix e n -> guards m = (if Nat.eqb n 0 || Nat.eqb n 4 then [] else [false]) -> state P m.

Lemma step2_tame d : tame (step2 i d).
Proof. intros t l t' l' E. cbn in E. injection E as <- <-. destruct l; auto. Qed.
(** A step of the main program. *)
Lemma place_step m m' : place (shared m) (local m) (code m) -> suspended m = [] -> exec1 m = Ok m' ->
  place (shared m') (local m') (code m') /\ suspended m' = [].
Proof.
  intros Hp Hs E. unfold exec1 in E. destruct Hp as [pre Hc|Hc Hl|Hc Ht Hn].
  - destruct pre as [|x pre]; rewrite Hc in E.
    + cbn -[N.ltb] in E. injection E as <-. cbn -[N.ltb]. split; [|exact Hs]. apply Tested; [reflexivity|].
      replace (i <? 16) with true by lia. reflexivity.
    + cbn [app] in E. destruct x as [f| | | |]; cbn in E.
      * destruct (f (shared m, local m)) as [r| |]; try discriminate E. cbn in E. injection E as <-. cbn. split; [eapply Before; reflexivity|exact Hs].
      * injection E as <-. cbn. split; [eapply Before; reflexivity|exact Hs].
      * injection E as <-. cbn. split; [eapply Before; reflexivity|exact Hs].
      * injection E as <-. cbn. split; [eapply Before; reflexivity|exact Hs].
      * destruct (guards m); [discriminate E|]. injection E as <-. cbn. split; [eapply Before; reflexivity|exact Hs].
  - rewrite Hc in E. cbn in E. injection E as <-. cbn. split; [|exact Hs]. apply After; [constructor; [apply step2_tame|exact Hrest]| |cbn; lia].
    rewrite Hl. destruct (N.eqb_spec (entry_handler (shared m) i) h) as [e|e]; [|exact e]. cbn. rewrite N.eqb_refl. congruence.
  - destruct (code m) as [|x c] eqn:Ec.
    + rewrite Hs in E. injection E as <-. rewrite Ec. split; [apply After; auto; constructor|exact Hs].
    + inversion Hc as [|? ? Hx Hc']; subst. cbn in Hn. destruct x as [f| | | |]; cbn in E.
      * destruct (f (shared m, local m)) as [[t' l']| |] eqn:Ef; try discriminate E. cbn in E. injection E as <-. cbn.
        split; [|exact Hs]. apply After; [exact Hc'|exact (proj2 (Hx _ _ _ _ Ef) Ht)|lia].
      * injection E as <-. cbn. split; [apply After; auto; lia|exact Hs].
      * injection E as <-. cbn. split; [apply After; auto; lia|exact Hs].
      * injection E as <-. cbn. split; [apply After; auto; lia|exact Hs].
      * destruct (guards m); [discriminate E|]. injection E as <-. cbn. split; [apply After; auto; lia|exact Hs].
Qed.
(** The handler of an interrupt, for a [P] that it does not disturb. *)
Definition stable (P : irq_table -> bool -> list instr -> Prop) : Prop :=
  forall t l c j, P t l c -> entry_handler t j <> 0 ->
    P {| entry_handler := entry_handler t; entry_data := entry_data t; called := called t ++ [(j, entry_handler t j, entry_data t j)] |} l c.
Lemma state_step (P : irq_table -> bool -> list instr -> Prop) m m' : stable P ->
  (P (shared m) (local m) (code m) -> suspended m = [] -> exec1 m = Ok m' -> P (shared m') (local m') (code m') /\ suspended m' = []) ->
  state P m -> exec1 m = Ok m' -> state P m'.
Proof.
  intros St Hmain Hm E. destruct Hm as [Hs Hp|e n l g c Hs Hp Hf Hn Hc Hg].
  - destruct (Hmain Hp Hs E) as [Hp' Hs']. apply SMain; assumption.
  - clear Hmain. destruct n as [|[|[|[|[|n] ] ] ] ]; [| | | | |lia]; cbn in Hc, Hg; unfold exec1 in E; rewrite Hc, ?Hg in E; cbn in E.
    + injection E as <-. apply (SIrq _ _ e 1 l g c); cbn; auto. rewrite Hf. reflexivity.
    + injection E as <-. apply (SIrq _ _ e 2 l g c); cbn; auto.
    + injection E as <-. apply (SIrq _ _ e 3 l g c); cbn; auto.
      destruct (N.eqb_spec (entry_handler (shared m) (r_code e)) 0) as [|Hne]; [exact Hp|]. apply St; assumption.
    + injection E as <-. apply (SIrq _ _ e 4 l g c); cbn; auto.
    + rewrite Hs in E. injection E as <-. apply SMain; cbn; auto.
Qed.
Lemma state_interrupt P e m : state P m -> state P (interrupt call_entry e m).
Proof.
  unfold interrupt. destruct (iflag m) eqn:Hfl; [|auto].
  destruct 1 as [Hs Hp|e' n l g c Hs Hp Hf Hn Hc Hg]; [|congruence].
  apply (SIrq _ _ e 0 (local m) (guards m) (code m)); cbn; auto; try lia. rewrite Hs. reflexivity.
Qed.
Lemma state_run (P : irq_table -> bool -> list instr -> Prop) : stable P ->
  (forall m m', P (shared m) (local m) (code m) -> suspended m = [] -> exec1 m = Ok m' -> P (shared m') (local m') (code m') /\ suspended m' = []) ->
  forall sched m m', state P m -> run call_entry sched m = Ok m' -> state P m'.
Proof.
  intros St Hm. induction sched as [|[e|] sched IH]; intros m m' Hs E; cbn in E.
  - injection E as <-. exact Hs.
  - eapply IH; [|exact E]. apply state_interrupt, Hs.
  - destruct (exec1 m) as [m1| |] eqn:E1; try discriminate E. cbn in E. eapply IH; [|exact E]. exact (state_step P m m1 St (Hm m m1) Hs E1).
Qed.
Lemma place_stable : stable place.
Proof.
  intros t l c j Hp _. destruct Hp as [pre Hc|Hc Hl|Hc Ht Hn]; [eapply Before; exact Hc|apply Tested; assumption|apply After; assumption].
Qed.
(** From there on no call. *)
Definition quiet (base : list (N * N * N)) (t : irq_table) (l : bool) (c : list instr) : Prop :=
  Forall tame c /\ entry_handler t i <> h /\ exists new, called t = base ++ new /\ forall d, ~ In (i, h, d) new.
Lemma quiet_stable base : stable (quiet base).
Proof.
  intros t l c j (Hc & Ht & new & En & Hn) _. split; [exact Hc|]. split; [exact Ht|]. cbn. rewrite En, <- app_assoc. eexists. split; [reflexivity|].
  intros d [Hin|[Hin|[]]]%in_app_iff; [exact (Hn d Hin)|]. injection Hin as -> E _. exact (Ht E).
Qed.
Lemma quiet_step base m m' : quiet base (shared m) (local m) (code m) -> suspended m = [] -> exec1 m = Ok m' ->
  quiet base (shared m') (local m') (code m') /\ suspended m' = [].
Proof.
  intros (Hc & Ht & new & En & Hn) Hs E. unfold exec1 in E. destruct (code m) as [|x c] eqn:Ec.
  - rewrite Hs in E. injection E as <-. rewrite Ec. split; [|exact Hs]. split; [constructor|]. eauto.
  - inversion Hc as [|? ? Hx Hc']; subst. destruct x as [f| | | |]; cbn in E.
    + destruct (f (shared m, local m)) as [[t' l']| |] eqn:Ef; try discriminate E. cbn in E. injection E as <-. cbn.
      destruct (Hx _ _ _ _ Ef) as [E1 E2]. split; [|exact Hs]. split; [exact Hc'|]. split; [auto|]. exists new. rewrite E1. auto.
    + injection E as <-. cbn. split; [|exact Hs]. split; [exact Hc'|]. eauto.
    + injection E as <-. cbn. split; [|exact Hs]. split; [exact Hc'|]. eauto.
    + injection E as <-. cbn. split; [|exact Hs]. split; [exact Hc'|]. eauto.
    + destruct (guards m); [discriminate E|]. injection E as <-. cbn. split; [|exact Hs]. split; [exact Hc'|]. eauto.
Qed.
Lemma gone_from pre t0 l fl sched1 m1 sched2 m2 :
  run call_entry sched1 (start t0 l fl (pre ++ unregister ++ rest)) = Ok m1 -> suspended m1 = [] -> (length (code m1) <= length rest)%nat ->
  run call_entry sched2 m1 = Ok m2 ->
  exists new, called (shared m2) = called (shared m1) ++ new /\ forall d, ~ In (i, h, d) new.
Proof.
  intros E1 Hs Hn E2.
  assert (state place m1) as S1.
  { eapply (state_run place place_stable); [|apply SMain|exact E1]; [|reflexivity|eapply Before; reflexivity]. intros m m' Hp Hs' E. exact (place_step m m' Hp Hs' E). }
  assert (Forall tame (code m1) /\ entry_handler (shared m1) i <> h) as [Hc Ht].
  { destruct S1 as [_ Hp|? ? ? ? ? Hs' _ _ _ _ _]; [|rewrite Hs in Hs'; discriminate]. destruct Hp as [pre' Hc|Hc Hl|Hc Ht _]; [..|auto].
    - rewrite Hc, !app_length in Hn. cbn in Hn. lia.
    - rewrite Hc in Hn. cbn in Hn. lia. }
  assert (state (quiet (called (shared m1))) m2) as S2.
  { eapply (state_run _ (quiet_stable _)); [|apply SMain|exact E2]; [intros; eapply quiet_step; eassumption|exact Hs|].
    split; [exact Hc|]. split; [exact Ht|]. exists []. rewrite app_nil_r. auto. }
  destruct S2 as [_ (_ & _ & Hq)|? ? ? ? ? _ (_ & _ & Hq) _ _ _ _]; exact Hq.
Qed.
End Gone.
Lemma ops_tame i h os : h <> 0 -> (forall d, ~ In (Register i h d) os) -> Forall (tame i h) (ops_code os).
Proof.
  intros Hh. induction os as [|o os IH]; intros Hn; [constructor|]. cbn. apply Forall_app. split; [|apply IH; intros d Hd; exact (Hn d (or_intror Hd))].
  destruct o as [j g d|j g| |]; cbn [op_code]; repeat (apply Forall_cons || apply Forall_nil); try exact I;
    intros t l t' l' E; cbn in E; injection E as <- <-; auto.
  - destruct l; [|auto]. split; [reflexivity|]. cbn. destruct (N.eqb_spec i j) as [<-|]; [|auto]. intros _ ->. exact (Hn d (or_introl eq_refl)).
  - destruct l; auto.
  - destruct l; [|auto]. split; [reflexivity|]. cbn. destruct (N.eqb_spec i j) as [<-|]; [|auto]. intros _. auto.
  - destruct l; auto.
Qed.
Theorem gone i h os1 os2 t0 l fl sched1 m1 sched2 m2 : i < 16 -> h <> 0 -> (forall d, ~ In (Register i h d) os2) ->
  run call_entry sched1 (start t0 l fl (ops_code (os1 ++ UnRegister i h :: os2))) = Ok m1 ->
  suspended m1 = [] -> (length (code m1) <= length (ops_code os2))%nat -> run call_entry sched2 m1 = Ok m2 ->
  exists new, called (shared m2) = called (shared m1) ++ new /\ forall d, ~ In (i, h, d) new.
Proof.
  intros Hi Hh Hn E1. eapply (gone_from i h (ops_code os2) Hi Hh (ops_tame i h os2 Hh Hn) (ops_code os1)).
  rewrite <- E1. f_equal. f_equal. unfold ops_code. rewrite map_app, concat_app. cbn. reflexivity.
Qed.
