(** Proofs for IrqRaceModel.v: a handler that is in the table is called for every interrupt of its line. *)
From Coq Require Import NArith Bool List Lia ZifyBool ZifyN Arith.
From Verif Require Import Base IrqRaceModel IrqRaceSpec IrqRaceTable.
Import ListNotations.
Local Open Scope N_scope.

Section Served.
Variables (i h d : N).
Hypotheses (Hi : i < 16) (Hh : h <> 0).
Notation machine := (machine irq_table bool).
Notation instr := (instr irq_table bool).
Definition kept (os : list table_op) : Prop := ~ In (UnRegister i h) os.
(** Where the main program is once the handler is in the table. *)
Inductive spot (l : bool) (c : list instr) : Prop :=
| AtOp os : kept os -> c = ops_code os -> spot l c
| AtHandler os j g x : kept os -> c = step1 j g :: step2 j x :: ops_code os -> (l = true -> j <> i) -> spot l c
| AtData os j x : kept os -> c = step2 j x :: ops_code os -> (l = true -> j <> i) -> spot l c.
Definition holds (t : irq_table) : Prop := entry_handler t i = h /\ entry_data t i = d.
Lemma spot_step m m' : spot (local m) (code m) -> holds (shared m) -> suspended m = [] -> exec1 m = Ok m' ->
  spot (local m') (code m') /\ holds (shared m') /\ suspended m' = [] /\ called (shared m') = called (shared m) /\ taken m' = taken m.
Proof.
  intros Hp [Hth Htd] Hs E. unfold exec1 in E. destruct Hp as [os Ho Hc|os j g x Ho Hc Hj|os j x Ho Hc Hj]; rewrite Hc in E.
  - destruct os as [|o os].
    + cbn in E. rewrite Hs in E. injection E as <-. repeat split; auto. apply (AtOp _ _ []); auto.
    + assert (kept os) as Ho' by (intros Hin; apply Ho; right; exact Hin).
      destruct o as [j g x|j g| |]; cbn -[N.ltb] in E; injection E as <-; cbn -[N.ltb]; repeat split; auto.
      * apply (AtHandler _ _ os j g x); auto. intros El ->. rewrite Hth in El. lia.
      * apply (AtHandler _ _ os j 0 0); auto. intros El ->. apply Ho. left. f_equal. rewrite Hth in El. lia.
      * apply (AtOp _ _ os); auto.
      * apply (AtOp _ _ os); auto.
  - cbn in E. injection E as <-. cbn. destruct (local m) eqn:El; cbn.
    + specialize (Hj eq_refl). unfold holds. cbn. replace (i =? j) with false by lia. repeat split; auto. apply (AtData _ _ os j x); auto.
    + repeat split; auto. apply (AtData _ _ os j x); auto.
  - cbn in E. injection E as <-. cbn. destruct (local m) eqn:El; cbn.
    + specialize (Hj eq_refl). unfold holds. cbn. replace (i =? j) with false by lia. repeat split; auto. apply (AtOp _ _ os); auto.
    + repeat split; auto. apply (AtOp _ _ os); auto.
Qed.

Variables (calls0 : list (N * N * N)) (taken0 : list regs).
Definition of_line (x : N * N * N) : bool := fst (fst x) =? i.
Definition ledger (tk : list regs) (cl : list (N * N * N)) : Prop := exists new, tk = taken0 ++ new /\
  filter of_line cl = filter of_line calls0 ++ repeat (i, h, d) (length (filter (fun e => r_code e =? i) new)).
Inductive served (m : machine) : Prop :=
| VMain : suspended m = [] -> spot (local m) (code m) -> holds (shared m) -> ledger (taken m) (called (shared m)) -> served m
| VIrq e n l g c tk : suspended m = [(l, true, g, c)] -> spot l c -> holds (shared m) -> iflag m = false ->
    (n <= 4)%nat -> code m = suffix e n -> guards m = (if Nat.eqb n 0 || Nat.eqb n 4 then [] else [false]) ->
    taken m = tk ++ [e] -> ledger (if Nat.leb n 2 then tk else taken m) (called (shared m)) -> served m.

Lemma served_step m m' : served m -> exec1 m = Ok m' -> served m'.
Proof.
  intros Hm E. destruct Hm as [Hs Hp Ht Hl|e n l g c tk Hs Hp Ht Hf Hn Hc Hg Htk Hl].
  - destruct (spot_step m m' Hp Ht Hs E) as (Hp' & Ht' & Hs' & E1 & E2). apply VMain; auto. rewrite E1, E2. exact Hl.
  - destruct n as [|[|[|[|[|n] ] ] ] ]; [| | | | |lia]; cbn in Hc, Hg, Hl; unfold exec1 in E; rewrite Hc, ?Hg in E; cbn in E.
    + injection E as <-. apply (VIrq _ e 1 l g c tk); cbn; auto. rewrite Hf. reflexivity.
    + injection E as <-. apply (VIrq _ e 2 l g c tk); cbn; auto.
    + injection E as <-. destruct Ht as [Hth Htd]. destruct Hl as (new & -> & El).
      apply (VIrq _ e 3 l g c (taken0 ++ new)); cbn; auto.
      * split; destruct (entry_handler (shared m) (r_code e) =? 0); auto.
      * exists (new ++ [e]). split; [rewrite Htk, <- app_assoc; reflexivity|].
        rewrite filter_app, app_length. cbn. destruct (N.eqb_spec (r_code e) i) as [Ei|Ei].
        -- rewrite Ei, Hth, Htd. replace (h =? 0) with false by lia. cbn. rewrite filter_app, El. cbn. unfold of_line at 2. cbn.
           rewrite N.eqb_refl, repeat_app, app_assoc. reflexivity.
        -- cbn. rewrite Nat.add_0_r, <- El. destruct (entry_handler (shared m) (r_code e) =? 0); [reflexivity|]. cbn.
           rewrite filter_app. cbn. unfold of_line at 2. cbn. replace (r_code e =? i) with false by lia. apply app_nil_r.
    + injection E as <-. apply (VIrq _ e 4 l g c tk); cbn; auto.
    + rewrite Hs in E. injection E as <-. apply VMain; cbn; auto.
Qed.
Lemma served_interrupt e m : served m -> served (interrupt call_entry e m).
Proof.
  unfold interrupt. destruct (iflag m) eqn:Hfl; [|auto].
  destruct 1 as [Hs Hp Ht Hl|e' n l g c tk Hs Hp Ht Hf Hn Hc Hg Htk Hl]; [|congruence].
  apply (VIrq _ e 0 (local m) (guards m) (code m) (taken m)); cbn; auto; try lia. rewrite Hs. reflexivity.
Qed.
Lemma served_run sched m m' : served m -> run call_entry sched m = Ok m' -> served m'.
Proof.
  revert m. induction sched as [|[e|] sched IH]; intros m Hm E; cbn in E.
  - injection E as <-. exact Hm.
  - eapply IH; [|exact E]. apply served_interrupt, Hm.
  - destruct (exec1 m) as [m1| |] eqn:E1; try discriminate E. cbn in E. eapply IH; [|exact E]. exact (served_step m m1 Hm E1).
Qed.
End Served.

(** ** While it is put there *)
Section Entering.
Variables (i h d : N) (rest : list (instr irq_table bool)) (ops : list table_op).
Hypotheses (Hi : i < 16) (Hh : h <> 0) (Hk : kept i h ops) (Hrest : rest = ops_code ops).
Notation machine := (machine irq_table bool).
Notation instr := (instr irq_table bool).
Inductive entering (t : irq_table) (l : bool) (c : list instr) : Prop :=
| E0 : c = op_code (Register i h d) ++ rest -> entry_handler t i = 0 -> entering t l c
| E1 : c = step1 i h :: step2 i d :: rest -> l = true -> entry_handler t i = 0 -> entering t l c
| E2 : c = step2 i d :: rest -> l = true -> entry_handler t i = h -> entering t l c
| E3 : spot i h l c -> holds i h d t -> entering t l c.
Inductive enters (m : machine) : Prop :=
| NMain : suspended m = [] -> entering (shared m) (local m) (code m) -> enters m
| NIrq e n l g c : suspended m = [(l, true, g, c)] -> entering (shared m) l c -> iflag m = false ->
    (n <= 4)%nat -> code m = suffix e n -> guards m = (if Nat.eqb n 0 || Nat.eqb n 4 then [] else [false]) -> enters m.
Lemma entering_step m m' : entering (shared m) (local m) (code m) -> suspended m = [] -> exec1 m = Ok m' ->
  entering (shared m') (local m') (code m') /\ suspended m' = [].
Proof.
  intros Hp Hs E. destruct Hp as [Hc Ht|Hc Hl Ht|Hc Hl Ht|Hp Ht].
  - unfold exec1 in E. rewrite Hc in E. cbn -[N.ltb] in E. injection E as <-. cbn -[N.ltb]. split; [|exact Hs]. apply E1; [reflexivity| |exact Ht]. rewrite Ht. lia.
  - unfold exec1 in E. rewrite Hc in E. cbn in E. rewrite Hl in E. injection E as <-. cbn. split; [|exact Hs]. apply E2; [reflexivity|reflexivity|]. cbn. rewrite N.eqb_refl. reflexivity.
  - unfold exec1 in E. rewrite Hc in E. cbn in E. rewrite Hl in E. injection E as <-. cbn. split; [|exact Hs]. apply E3; [apply (AtOp _ _ _ _ ops); auto|]. unfold holds. cbn. rewrite N.eqb_refl. auto.
  - destruct (spot_step i h d Hi Hh m m' Hp Ht Hs E) as (Hp' & Ht' & Hs' & _). split; [apply E3; assumption|exact Hs'].
Qed.
Lemma entering_same t l c cl : entering t l c -> entering {| entry_handler := entry_handler t; entry_data := entry_data t; called := cl |} l c.
Proof. destruct 1; [apply E0|apply E1|apply E2|apply E3]; assumption. Qed.
Lemma enters_step m m' : enters m -> exec1 m = Ok m' -> enters m'.
Proof.
  intros Hm E. destruct Hm as [Hs Hp|e n l g c Hs Hp Hf Hn Hc Hg].
  - destruct (entering_step m m' Hp Hs E). apply NMain; assumption.
  - destruct n as [|[|[|[|[|n] ] ] ] ]; [| | | | |lia]; cbn in Hc, Hg; unfold exec1 in E; rewrite Hc, ?Hg in E; cbn in E.
    + injection E as <-. apply (NIrq _ e 1 l g c); cbn; auto. rewrite Hf. reflexivity.
    + injection E as <-. apply (NIrq _ e 2 l g c); cbn; auto.
    + injection E as <-. apply (NIrq _ e 3 l g c); cbn; auto.
      destruct (entry_handler (shared m) (r_code e) =? 0); [exact Hp|]. apply entering_same, Hp.
    + injection E as <-. apply (NIrq _ e 4 l g c); cbn; auto.
    + rewrite Hs in E. injection E as <-. apply NMain; cbn; auto.
Qed.
Lemma enters_run sched m m' : enters m -> run call_entry sched m = Ok m' -> enters m'.
Proof.
  revert m. induction sched as [|[e|] sched IH]; intros m Hm E; cbn in E.
  - injection E as <-. exact Hm.
  - eapply IH; [|exact E]. unfold interrupt. destruct (iflag m) eqn:Hfl; [|exact Hm].
    destruct Hm as [Hs Hp|e' n l g c Hs Hp Hf Hn Hc Hg]; [|congruence].
    apply (NIrq _ e 0 (local m) (guards m) (code m)); cbn; auto; try lia. rewrite Hs. reflexivity.
  - destruct (exec1 m) as [m1| |] eqn:Em; try discriminate E. cbn in E. eapply IH; [|exact E]. exact (enters_step m m1 Hm Em).
Qed.
End Entering.

Theorem all_served i h d os t0 l fl sched1 m1 sched2 m2 : i < 16 -> h <> 0 -> entry_handler t0 i = 0 -> ~ In (UnRegister i h) os ->
  run call_entry sched1 (start t0 l fl (ops_code (Register i h d :: os))) = Ok m1 ->
  suspended m1 = [] -> (length (code m1) <= length (ops_code os))%nat ->
  run call_entry sched2 m1 = Ok m2 -> suspended m2 = [] ->
  exists new, taken m2 = taken m1 ++ new /\
    filter (fun x => fst (fst x) =? i) (called (shared m2)) =
    filter (fun x => fst (fst x) =? i) (called (shared m1)) ++ repeat (i, h, d) (length (filter (fun e => r_code e =? i) new)).
Proof.
  intros Hi Hh H0 Hk R1 Hs1 Hn R2 Hs2.
  assert (enters i h d (ops_code os) m1) as S1.
  { eapply (enters_run i h d (ops_code os) os Hi Hh Hk eq_refl); [|exact R1]. apply NMain; [reflexivity|]. apply E0; [reflexivity|exact H0]. }
  assert (spot i h (local m1) (code m1) /\ holds i h d (shared m1)) as [Hp Ht].
  { destruct S1 as [_ Hp|? ? ? ? ? Hs _ _ _ _ _]; [|congruence].
    destruct Hp as [Hc _|Hc _ _|Hc _ _|]; [rewrite Hc in Hn; cbn in Hn; lia..|auto]. }
  assert (served i h d (called (shared m1)) (taken m1) m2) as S2.
  { eapply (served_run i h d Hi Hh); [|exact R2]. apply VMain; auto. exists []. rewrite !app_nil_r. auto. }
  destruct S2 as [_ _ _ Hl|? ? ? ? ? ? Hs _ _ _ _ _ _ _ _]; [|congruence]. exact Hl.
Qed.
