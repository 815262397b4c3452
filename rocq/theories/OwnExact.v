(** Programs over any and function that are not right are undefined. *)
From stdpp Require Import gmap.
From Verif Require Import Base OwnSpec OwnModel OwnProofs OwnExactSpec.
Local Open Scope N_scope.
Local Open Scope outcome_scope.

Section any.
  Context {X : Type}.
  Implicit Types (w : own X) (σ : gmap N (option X)).

  Lemma get_none w σ s : rep w σ -> σ !! s = None -> get w s = UB.
  Proof. intros R H. unfold get. rewrite (rep_none _ _ _ R H). reflexivity. Qed.
  Lemma put_none w σ s v : rep w σ -> σ !! s = None -> put w s v = UB.
  Proof. intros R H. unfold put. rewrite (rep_none _ _ _ R H). reflexivity. Qed.
  Lemma declare_used w σ s v u : rep w σ -> σ !! s = Some u -> declare w s v = UB.
  Proof. intros R H. unfold declare. destruct (rep_get _ _ _ _ R H) as (c & _ & -> & _). reflexivity. Qed.
  Lemma of_used w σ s x u : rep w σ -> σ !! s = Some u -> any_of w s x = UB.
  Proof. intros R H. unfold any_of. cbn. unfold declare. cbn. destruct (rep_get _ _ _ _ R H) as (c & _ & -> & _). reflexivity. Qed.
  Lemma swap_none w σ a b : rep w σ -> σ !! a = None \/ σ !! b = None -> swap_slots w a b = UB.
  Proof.
    intros R [H|H]; unfold swap_slots; [rewrite (get_none _ _ _ R H); reflexivity|].
    destruct (get w a) eqn:E; [|reflexivity|unfold get in E; repeat case_match; discriminate].
    cbn. rewrite (get_none _ _ _ R H). reflexivity.
  Qed.
  Lemma fresh_false σ s : s <> 0 -> fresh_name σ s = false -> exists u, σ !! s = Some u.
  Proof.
    unfold fresh_name. intros N. destruct (s =? 0) eqn:E; [apply N.eqb_eq in E; contradiction|]. cbn.
    destruct (σ !! s); [eauto|discriminate].
  Qed.
  Lemma copy_wrong w σ s src : rep w σ -> σ !! src = None \/ (exists u, σ !! s = Some u) -> any_copy w s src = UB.
  Proof.
    intros R H. unfold any_copy. destruct (σ !! src) as [v|] eqn:E.
    - destruct H as [H|(u & H)]; [discriminate|]. destruct (rep_get _ _ _ _ R E) as (c & -> & _ & C). cbn.
      destruct c as [p|]; [|exact (declare_used _ _ _ _ _ R H)]. destruct v as [x|]; [|contradiction].
      unfold cell. rewrite C. cbn. exact (of_used _ _ _ _ _ R H).
    - rewrite (get_none _ _ _ R E). reflexivity.
  Qed.
  Lemma move_wrong w σ s src : rep w σ -> σ !! src = None \/ (exists u, σ !! s = Some u) -> any_move w s src = UB.
  Proof.
    intros R H. unfold any_move. destruct (σ !! src) as [v|] eqn:E.
    - destruct H as [H|(u & H)]; [discriminate|]. destruct (rep_get _ _ _ _ R E) as (c & -> & _ & C). cbn.
      rewrite (declare_used _ _ _ _ _ R H). reflexivity.
    - rewrite (get_none _ _ _ R E). reflexivity.
  Qed.
  Lemma any_step_wrong w σ o : rep w σ -> σ !! 0 = None -> Forall (fun s => s <> 0) (names o) -> hspec σ o = None -> any_step w o = UB.
  Proof.
    intros R W N H. destruct o; cbn [names] in N; cbn [hspec any_step] in *;
      repeat match goal with F : Forall _ (_ :: _) |- _ => apply Forall_cons in F; destruct F end.
    - destruct (fresh_name σ s) eqn:E; [discriminate|]. apply fresh_false in E; [|assumption]. destruct E as (u & E).
      exact (declare_used _ _ _ _ _ R E).
    - destruct (fresh_name σ s) eqn:E; [discriminate|]. apply fresh_false in E; [|assumption]. destruct E as (u & E).
      exact (of_used _ _ _ _ _ R E).
    - apply (copy_wrong _ _ _ _ R). destruct (fresh_name σ s) eqn:E; [|right; apply fresh_false; assumption].
      left. destruct (σ !! src); [discriminate|reflexivity].
    - apply (move_wrong _ _ _ _ R). destruct (fresh_name σ s) eqn:E; [|right; apply fresh_false; assumption].
      left. destruct (σ !! src); [discriminate|reflexivity].
    - unfold any_dtor. rewrite (get_none _ σ) by (first [assumption|destruct (σ !! s); [discriminate|reflexivity]]). reflexivity.
    - apply (swap_none _ _ _ _ R). destruct (σ !! a); [|tauto]. destruct (σ !! b); [discriminate|tauto].
    - destruct (σ !! src) as [v|] eqn:E.
      + destruct (σ !! s) as [u|] eqn:Es; [discriminate|].
        unfold any_assign_copy. destruct (rep_copy w σ 0 src v R W E) as (w1 & -> & R1). cbn. unfold any_swap.
        rewrite (swap_none _ _ 0 s R1); [reflexivity|]. right. rewrite lookup_insert_ne by congruence. exact Es.
      + unfold any_assign_copy. rewrite (copy_wrong _ _ _ _ R) by tauto. reflexivity.
    - destruct (σ !! src) as [v|] eqn:E.
      + destruct (σ !! s) as [u|] eqn:Es; [discriminate|].
        unfold any_assign_move. destruct (rep_move w σ 0 src v R W E) as (w1 & -> & R1). cbn. unfold any_swap.
        rewrite (swap_none _ _ 0 s R1); [reflexivity|]. right.
        rewrite lookup_insert_ne by congruence. rewrite lookup_insert_ne by congruence. exact Es.
      + unfold any_assign_move. rewrite (move_wrong _ _ _ _ R) by tauto. reflexivity.
    - destruct (σ !! s) as [u|] eqn:Es; [discriminate|]. unfold any_assign_of.
      destruct (rep_declare_new w σ 0 x R W) as (w1 & D & R1). rewrite D. cbn. unfold any_swap.
      rewrite (swap_none _ _ 0 s R1); [reflexivity|]. right. rewrite lookup_insert_ne by congruence. exact Es.
    - destruct (σ !! s) as [u|] eqn:Es; [discriminate|]. unfold any_clear.
      destruct (rep_declare_null w σ 0 R W) as (w1 & D & R1). unfold any_default. rewrite D. cbn. unfold any_swap.
      rewrite (swap_none _ _ 0 s R1); [reflexivity|]. right. rewrite lookup_insert_ne by congruence. exact Es.
    - destruct (σ !! s) as [u|] eqn:Es; [discriminate|]. unfold any_emplace, any_clear.
      destruct (rep_declare_null w σ 0 R W) as (w1 & D & R1). unfold any_default. rewrite D. cbn. unfold any_swap.
      rewrite (swap_none _ _ 0 s R1); [reflexivity|]. right. rewrite lookup_insert_ne by congruence. exact Es.
    - unfold any_write. destruct (σ !! s) as [[x|]|] eqn:Es; [discriminate| |].
      + destruct (rep_get _ _ _ _ R Es) as (c & -> & _ & C). cbn. destruct c; [contradiction|reflexivity].
      + rewrite (get_none _ _ _ R Es). reflexivity.
  Qed.
  Lemma fun_copy_wrong w σ s src : rep w σ -> σ !! src = None \/ σ !! src = Some None \/ (exists u, σ !! s = Some u) -> fun_copy w s src = UB.
  Proof.
    intros R H. unfold fun_copy. destruct (σ !! src) as [v|] eqn:E.
    - destruct (rep_get _ _ _ _ R E) as (c & -> & _ & C). cbn. destruct c as [p|]; [|reflexivity].
      destruct v as [x|]; [|contradiction]. unfold cell. rewrite C. cbn.
      destruct H as [H|[H|(u & H)]]; [discriminate|discriminate|]. exact (of_used _ _ _ _ _ R H).
    - rewrite (get_none _ _ _ R E). reflexivity.
  Qed.
  Lemma fun_step_wrong w σ o : rep w σ -> σ !! 0 = None -> Forall (fun s => s <> 0) (names o) -> hspec σ o = None -> fun_step w o = UB.
  Proof.
    intros R W N H. destruct o; try (exact (any_step_wrong w σ _ R W N H)); cbn [fun_step hspec names] in *;
      repeat match goal with F : Forall _ (_ :: _) |- _ => apply Forall_cons in F; destruct F end.
    - apply (fun_copy_wrong _ _ _ _ R). destruct (fresh_name σ s) eqn:E; [|right; right; apply fresh_false; assumption].
      left. destruct (σ !! src); [discriminate|reflexivity].
    - unfold fun_assign_copy. destruct (σ !! src) as [v|] eqn:E; [|rewrite (fun_copy_wrong _ _ _ _ R) by tauto; reflexivity].
      destruct v as [x|]; [|rewrite (fun_copy_wrong _ _ _ _ R) by tauto; reflexivity].
      destruct (σ !! s) as [u|] eqn:Es; [discriminate|].
      rewrite (fun_copy_any w σ 0 src x R E). destruct (rep_copy w σ 0 src (Some x) R W E) as (w1 & -> & R1). cbn. unfold any_swap.
      rewrite (swap_none _ _ 0 s R1); [reflexivity|]. right. rewrite lookup_insert_ne by congruence. exact Es.
  Qed.
  Definition copies_empty σ (o : hop X) : Prop :=
    match o with HCopy _ src | HAssignCopy _ src => σ !! src = Some None | _ => False end.
  Lemma fun_empty w σ o : rep w σ -> copies_empty σ o -> fun_step w o = UB.
  Proof.
    intros R H. destruct o; cbn in *; try contradiction.
    - apply (fun_copy_wrong _ _ _ _ R). tauto.
    - unfold fun_assign_copy. rewrite (fun_copy_wrong _ _ _ _ R) by tauto. reflexivity.
  Qed.

  Lemma any_run_wrong os : forall w σ, rep w σ -> σ !! 0 = None -> named os -> hspec_run σ os = None -> any_run w os = UB.
  Proof.
    induction os as [|o os IH]; intros w σ R W N H; cbn in *; [discriminate|]. apply Forall_cons in N. destruct N as [N1 N2].
    destruct (hspec σ o) as [σ1|] eqn:E.
    - destruct (any_step_ok w σ o σ1 R W E) as (w1 & -> & R1 & W1). cbn. exact (IH _ _ R1 W1 N2 H).
    - rewrite (any_step_wrong _ _ _ R W N1 E). reflexivity.
  Qed.
  Lemma fun_run_wrong os : forall w σ, rep w σ -> σ !! 0 = None -> named os -> hspec_run σ os = None \/ ~ no_empty_copy σ os -> fun_run w os = UB.
  Proof.
    induction os as [|o os IH]; intros w σ R W N H; cbn [hspec_run no_empty_copy fun_run] in *; [destruct H; [discriminate|tauto]|].
    apply Forall_cons in N. destruct N as [N1 N2].
    destruct (hspec σ o) as [σ1|] eqn:E; [|rewrite (fun_step_wrong _ _ _ R W N1 E); reflexivity].
    assert (D : copies_empty σ o \/ match o with HCopy _ src | HAssignCopy _ src => σ !! src <> Some None | _ => True end).
    { destruct o; cbn; try tauto; destruct (σ !! src) as [[?|]|]; try tauto; right; discriminate. }
    destruct D as [D|D]; [rewrite (fun_empty _ _ _ R D); reflexivity|].
    destruct (any_step_ok w σ o σ1 R W E) as (w1 & E1 & R1 & W1).
    rewrite (fun_step_any w σ o R D) by congruence. rewrite E1. cbn. apply (IH _ _ R1 W1 N2). tauto.
  Qed.
End any.

Lemma any_exact {X} (os : list (hop X)) : named os -> hspec_run ∅ os = None -> any_run own_empty os = UB.
Proof. intros N. exact (any_run_wrong os _ _ rep_empty (lookup_empty 0) N). Qed.
Lemma fun_exact {X} (os : list (hop X)) : named os -> hspec_run ∅ os = None \/ ~ no_empty_copy ∅ os -> fun_run own_empty os = UB.
Proof. intros N. exact (fun_run_wrong os _ _ rep_empty (lookup_empty 0) N). Qed.
Lemma any_decided {X} (os : list (hop X)) : named os ->
  match hspec_run ∅ os with
  | Some σ => exists w, any_run own_empty os = Ok w /\ (forall s v, σ !! s = Some v -> any_value w s = Ok v) /\ (forall s, σ !! s = None -> slots w !! s = None)
  | None => any_run own_empty os = UB
  end.
Proof.
  intros N. destruct (hspec_run ∅ os) as [σ|] eqn:E; [|exact (any_exact os N E)].
  destruct (any_history os σ E) as (w & A & B & C & _). eauto.
Qed.
Lemma fun_defined {X} (os : list (hop X)) : named os ->
  (exists w, fun_run own_empty os = Ok w) <-> is_Some (hspec_run ∅ os) /\ no_empty_copy ∅ os.
Proof.
  intros N. split.
  - intros (w & E). split.
    + destruct (hspec_run ∅ os) as [σ|] eqn:H; [eauto|]. rewrite (fun_exact os N (or_introl H)) in E. discriminate.
    + enough (H : ~ ~ no_empty_copy ∅ os).
      { clear -H. revert H. generalize (∅ : gmap N (option X)). induction os as [|o os IH]; intros σ H; cbn in *; [exact I|]. split.
        - destruct o; try exact I; intros C; apply H; tauto.
        - destruct (hspec σ o) as [σ1|]; [|exact I]. apply IH. intros C. apply H. tauto. }
      intros C. rewrite (fun_exact os N (or_intror C)) in E. discriminate.
  - intros ((σ & H) & C). destruct (fun_history os σ H C) as (w & E & _). eauto.
Qed.
Lemma fun_decided {X} (os : list (hop X)) : named os -> (exists w, fun_run own_empty os = Ok w) \/ fun_run own_empty os = UB.
Proof.
  intros N. revert N. generalize (lookup_empty (M := gmap N) (A := option X) 0). generalize (rep_empty (X := X)).
  generalize (∅ : gmap N (option X)). generalize (own_empty (X := X)).
  induction os as [|o os IH]; intros w σ R W N; cbn; [eauto|]. pose proof N as N'. apply Forall_cons in N'. destruct N' as [N1 N2].
  destruct (hspec σ o) as [σ1|] eqn:E; [|rewrite (fun_step_wrong _ _ _ R W N1 E); cbn; auto].
  assert (D : copies_empty σ o \/ match o with HCopy _ src | HAssignCopy _ src => σ !! src <> Some None | _ => True end).
  { destruct o; cbn; try tauto; destruct (σ !! src) as [[?|]|]; try tauto; right; discriminate. }
  destruct D as [D|D]; [rewrite (fun_empty _ _ _ R D); cbn; auto|].
  destruct (any_step_ok w σ o σ1 R W E) as (w1 & E1 & R1 & W1).
  rewrite (fun_step_any w σ o R D) by congruence. rewrite E1. cbn. exact (IH _ _ R1 W1 N2).
Qed.
