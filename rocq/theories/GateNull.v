(** Every history of registrations, the null handler included. *)
From stdpp Require Import gmap list.
From Coq Require Import NArith ZArith Lia ZifyN ZifyNat ZifyBool.
From Verif Require Import Base GateModel GateSpec GateProofs GateNullSpec.
Local Open Scope N_scope.

Lemma irq_null_step t σ o : irq_rel t σ ->
  exists σ' b, null_spec 16 σ o = (σ', b) /\ snd (irq_step t o) = b /\ irq_rel (fst (irq_step t o)) σ'.
Proof.
  intros R. pose proof R as [Hlen Hrel]. destruct o as [l h d|l h].
  - destruct (decide (h = 0)) as [->|Hh].
    + cbn [irq_step null_spec]. unfold register_irq. pose proof (Hrel l) as Hl. destruct (t !! N.to_nat l) as [[h0 d0]|] eqn:E.
      * apply lookup_lt_Some in E as Hlt. replace (l <? 16) with true by lia. rewrite Hl.
        destruct (N.eqb_spec h0 0); cbn [negb]; [|do 2 eexists; split; [reflexivity|]; split; [reflexivity|exact R]].
        do 2 eexists. split; [reflexivity|]. split; [reflexivity|].
        split; [cbn [fst]; rewrite insert_length; exact Hlen|]. intros l'. cbn [fst].
        rewrite lookup_to_nat_insert by exact Hlt. case_decide as El; [|apply Hrel]. subst l'. etransitivity; [exact Hl|reflexivity].
      * apply lookup_ge_None in E. replace (l <? 16) with false by lia.
        do 2 eexists. split; [reflexivity|]. split; [reflexivity|exact R].
    + destruct (irq_step_refines t σ (Reg l h d) R Hh) as (σ' & b & H1 & H2 & H3). exists σ', b. split; [|auto].
      rewrite <- H1. cbn [null_spec reg_spec]. replace (h =? 0) with false by lia. reflexivity.
  - destruct (decide (h = 0)) as [->|Hh].
    + cbn [irq_step null_spec]. unfold unregister_irq. pose proof (Hrel l) as Hl. destruct (t !! N.to_nat l) as [[h0 d0]|] eqn:E.
      * apply lookup_lt_Some in E as Hlt. rewrite Hl. destruct (N.eqb_spec h0 0) as [->|H0].
        -- replace (l <? 16) with true by lia. cbn [negb andb N.eqb]. do 2 eexists. split; [reflexivity|]. split; [reflexivity|].
           split; [cbn [fst]; rewrite insert_length; exact Hlen|]. intros l'. cbn [fst].
           rewrite lookup_to_nat_insert by exact Hlt. case_decide as El; [|apply Hrel]. subst l'. etransitivity; [exact Hl|reflexivity].
        -- replace (h0 =? 0) with false by lia. cbn [negb]. do 2 eexists. split; [reflexivity|]. split; [reflexivity|exact R].
      * apply lookup_ge_None in E. rewrite Hl. replace (l <? 16) with false by lia. do 2 eexists. split; [reflexivity|]. split; [reflexivity|exact R].
    + destruct (irq_step_refines t σ (Unreg l h) R Hh) as (σ' & b & H1 & H2 & H3). exists σ', b. split; [|auto].
      rewrite <- H1. cbn [null_spec reg_spec]. replace (h =? 0) with false by lia. rewrite andb_false_r. reflexivity.
Qed.
Lemma sys_null_step t σ o : sys_rel t σ ->
  exists σ' b, null_spec 10 σ (drop_data o) = (σ', b) /\ snd (sys_step t o) = b /\ sys_rel (fst (sys_step t o)) σ'.
Proof.
  intros R. pose proof R as [Hlen Hrel]. destruct o as [l h d|l h].
  - destruct (decide (h = 0)) as [->|Hh].
    + cbn [sys_step null_spec drop_data]. unfold register_syscall. pose proof (Hrel l) as Hl. destruct (t !! N.to_nat l) as [h0|] eqn:E.
      * apply lookup_lt_Some in E as Hlt. replace (l <? 10) with true by lia. rewrite Hl.
        destruct (N.eqb_spec h0 0); cbn [negb]; [|do 2 eexists; split; [reflexivity|]; split; [reflexivity|exact R]].
        do 2 eexists. split; [reflexivity|]. split; [reflexivity|].
        split; [cbn [fst]; rewrite insert_length; exact Hlen|]. intros l'. cbn [fst].
        rewrite lookup_to_nat_insert by exact Hlt. case_decide as El; [|apply Hrel]. subst l'. etransitivity; [exact Hl|reflexivity].
      * apply lookup_ge_None in E. replace (l <? 10) with false by lia.
        do 2 eexists. split; [reflexivity|]. split; [reflexivity|exact R].
    + destruct (sys_step_refines t σ (Reg l h d) R Hh) as (σ' & b & H1 & H2 & H3). exists σ', b. split; [|auto].
      rewrite <- H1. cbn [null_spec reg_spec drop_data]. replace (h =? 0) with false by lia. reflexivity.
  - destruct (decide (h = 0)) as [->|Hh].
    + cbn [sys_step null_spec drop_data]. unfold unregister_syscall. pose proof (Hrel l) as Hl. destruct (t !! N.to_nat l) as [h0|] eqn:E.
      * apply lookup_lt_Some in E as Hlt. rewrite Hl. destruct (N.eqb_spec h0 0) as [->|H0].
        -- replace (l <? 10) with true by lia. cbn [negb andb N.eqb]. do 2 eexists. split; [reflexivity|]. split; [reflexivity|].
           split; [cbn [fst]; rewrite insert_length; exact Hlen|]. intros l'. cbn [fst].
           rewrite lookup_to_nat_insert by exact Hlt. case_decide as El; [|apply Hrel]. subst l'. etransitivity; [exact Hl|reflexivity].
        -- replace (h0 =? 0) with false by lia. cbn [negb]. do 2 eexists. split; [reflexivity|]. split; [reflexivity|exact R].
      * apply lookup_ge_None in E. rewrite Hl. replace (l <? 10) with false by lia. do 2 eexists. split; [reflexivity|]. split; [reflexivity|exact R].
    + destruct (sys_step_refines t σ (Unreg l h) R Hh) as (σ' & b & H1 & H2 & H3). exists σ', b. split; [|auto].
      rewrite <- H1. cbn [null_spec reg_spec drop_data]. replace (h =? 0) with false by lia. rewrite andb_false_r. reflexivity.
Qed.
Lemma irq_null_run os : forall t σ, irq_rel t σ ->
  let '(σ', bs) := null_run 16 σ os in snd (irq_run t os) = bs /\ irq_rel (fst (irq_run t os)) σ'.
Proof.
  induction os as [|o os IH]; intros t σ R; [cbn; auto|]. destruct (irq_null_step t σ o R) as (σ1 & b & E1 & E2 & E3).
  cbn [null_run irq_run]. rewrite E1. specialize (IH (fst (irq_step t o)) σ1 E3). destruct (null_run 16 σ1 os) as [σ2 bs].
  destruct (irq_step t o) as [t1 b1]. cbn [fst snd] in *. destruct (irq_run t1 os) as [t2 bs2]. cbn [fst snd] in *.
  destruct IH as [-> IH]. rewrite E2. auto.
Qed.
Lemma sys_null_run os : forall t σ, sys_rel t σ ->
  let '(σ', bs) := null_run 10 σ (map drop_data os) in snd (sys_run t os) = bs /\ sys_rel (fst (sys_run t os)) σ'.
Proof.
  induction os as [|o os IH]; intros t σ R; [cbn; auto|]. destruct (sys_null_step t σ o R) as (σ1 & b & E1 & E2 & E3).
  cbn [null_run sys_run map]. rewrite E1. specialize (IH (fst (sys_step t o)) σ1 E3). destruct (null_run 10 σ1 (map drop_data os)) as [σ2 bs].
  destruct (sys_step t o) as [t1 b1]. cbn [fst snd] in *. destruct (sys_run t1 os) as [t2 bs2]. cbn [fst snd] in *.
  destruct IH as [-> IH]. rewrite E2. auto.
Qed.
Theorem irq_exact os :
  let '(t, results) := irq_run irqs_init os in let '(σ, expected) := null_run 16 ∅ os in
  results = expected /\ forall n, n < 16 -> trigger_irq t n = Ok (σ !! n).
Proof.
  pose proof (irq_null_run os irqs_init ∅ irq_rel_init) as H. destruct (irq_run irqs_init os) as [t r]. destruct (null_run 16 ∅ os) as [σ e].
  cbn [fst snd] in H. destruct H as [-> H]. split; [reflexivity|]. intros n Hn. apply irq_dispatch; assumption.
Qed.
Theorem sys_exact os :
  let '(t, results) := sys_run syscalls_init os in let '(σ, expected) := null_run 10 ∅ (map drop_data os) in
  results = expected /\ forall n, n < 10 -> trigger_syscall t n = Ok (fst <$> σ !! n).
Proof.
  pose proof (sys_null_run os syscalls_init ∅ sys_rel_init) as H. destruct (sys_run syscalls_init os) as [t r].
  destruct (null_run 10 ∅ (map drop_data os)) as [σ e].
  cbn [fst snd] in H. destruct H as [-> H]. split; [reflexivity|]. intros n Hn. apply sys_dispatch; assumption.
Qed.
