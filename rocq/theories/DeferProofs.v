(** Proofs for DeferSpec.v. *)
From stdpp Require Import gmap.
From Coq Require Import ZArith Lia ZifyBool ZifyNat ZifyN.
From Verif Require Import Base OwnSpec OwnModel DeferSpec.
Local Open Scope outcome_scope.

Definition oz (a : N) (g : dguard) : Z := if owes a g then 1 else 0.
Definition zlive (a : N) (m : gmap N dguard) : Z := Z.of_nat (size (filter (fun kv : N * dguard => owes a (snd kv) = true) m)).

Lemma zlive_new a m s g : m !! s = None -> zlive a (<[s := g]> m) = (zlive a m + oz a g)%Z.
Proof.
  intros H. unfold zlive, oz. destruct (owes a g) eqn:E.
  - rewrite map_filter_insert_True by done. rewrite map_size_insert_None; [lia|].
    apply map_filter_lookup_None. by left.
  - rewrite map_filter_insert_False by (cbn; congruence). rewrite map_filter_delete, delete_notin; [lia|].
    apply map_filter_lookup_None. by left.
Qed.

Lemma zlive_delete a m s g : m !! s = Some g -> zlive a (delete s m) = (zlive a m - oz a g)%Z.
Proof.
  intros H. rewrite <- (insert_delete m s g H) at 2. rewrite zlive_new by apply lookup_delete. lia.
Qed.

Lemma zlive_set a m s g g' : m !! s = Some g -> zlive a (<[s := g']> m) = (zlive a m - oz a g + oz a g')%Z.
Proof.
  intros H. rewrite <- insert_delete_insert. rewrite zlive_new by apply lookup_delete. rewrite (zlive_delete a m s g H). lia.
Qed.

Lemma zlive_swap a m s t gs gt : m !! s = Some gs -> m !! t = Some gt -> zlive a (<[t := gs]> (<[s := gt]> m)) = zlive a m.
Proof.
  intros Hs Ht. destruct (decide (s = t)) as [->|N].
  - rewrite insert_insert. rewrite (zlive_set a m t gt) by done. replace gs with gt by congruence. lia.
  - rewrite (zlive_set a _ t gt) by (rewrite lookup_insert_ne; done). rewrite (zlive_set a m s gs) by done. lia.
Qed.

Lemma owes_at_eq a w s g : guards w !! s = Some g -> owes_at a w s = oz a g.
Proof. intros H. unfold owes_at. by rewrite H. Qed.

Lemma owing_eq a w : Z.of_nat (owing a w) = zlive a (guards w).
Proof. reflexivity. Qed.

Lemma runs_snoc a m r x : Z.of_nat (runs a {| guards := m; ran := r ++ [x] |}) = (Z.of_nat (length (filter (fun y => y = a) r)) + (if bool_decide (x = a) then 1 else 0))%Z.
Proof.
  unfold runs. cbn [ran]. rewrite filter_app, app_length. rewrite filter_cons, filter_nil.
  destruct (decide (x = a)) as [E|E]; [rewrite bool_decide_true by done|rewrite bool_decide_false by done]; cbn [length]; lia.
Qed.

Definition total a w : Z := (Z.of_nat (runs a w) + Z.of_nat (owing a w))%Z.

Lemma dnew_total a w s g w' : dnew w s g = Ok w' -> total a w' = (total a w + oz a g)%Z.
Proof.
  unfold dnew. destruct (guards w !! s) eqn:E; [discriminate|]. intros [= <-].
  unfold total. rewrite !owing_eq. cbn [guards]. rewrite zlive_new by done. unfold runs. cbn [ran]. lia.
Qed.

Lemma swap_total a w s t w' : d_swap w s t = Ok w' -> total a w' = total a w.
Proof.
  unfold d_swap. destruct (guards w !! s) as [gs|] eqn:E; [|discriminate]. destruct (guards w !! t) as [gt|] eqn:E2; [|discriminate].
  cbn. intros [= <-]. unfold total. rewrite !owing_eq. cbn [guards]. rewrite zlive_swap by done. unfold runs. cbn [ran]. lia.
Qed.

Lemma dtor_total a w s w' : d_dtor w s = Ok w' -> total a w' = total a w.
Proof.
  unfold d_dtor. destruct (guards w !! s) as [g|] eqn:E; [|discriminate]. cbn.
  destruct (dismissed g) eqn:D; cbn.
  - intros [= <-]. unfold total. rewrite !owing_eq. cbn [guards]. rewrite (zlive_delete _ _ _ _ E).
    unfold oz, owes. rewrite D. cbn. unfold runs. cbn [ran]. lia.
  - destruct (exit_scope g) as [x|] eqn:X; [|discriminate]. cbn. intros [= <-].
    unfold total. rewrite !owing_eq. cbn [guards]. rewrite (zlive_delete _ _ _ _ E), runs_snoc.
    unfold oz, owes. rewrite D, X. cbn [negb andb]. unfold runs.
    destruct (decide (x = a)) as [->|N].
    + rewrite !bool_decide_true by done. lia.
    + rewrite !bool_decide_false by congruence. lia.
Qed.

Lemma move_total a w s src w' : d_move w s src = Ok w' -> total a w' = total a w.
Proof.
  unfold d_move. destruct (guards w !! src) as [g|] eqn:E; [|discriminate]. cbn. intros H.
  rewrite (dnew_total a _ _ _ _ H). unfold oz, owes. cbn [exit_scope dismissed].
  rewrite bool_decide_false by discriminate. rewrite andb_false_r. lia.
Qed.

Lemma copy_total a w s src w' : d_copy w s src = Ok w' -> total a w' = (total a w + owes_at a w src)%Z.
Proof.
  unfold d_copy. destruct (guards w !! src) as [g|] eqn:E; [|discriminate]. cbn. intros H.
  rewrite (dnew_total a _ _ _ _ H). by rewrite (owes_at_eq _ _ _ _ E).
Qed.

Lemma step_total a w o w' : d_step w o = Ok w' -> total a w' = (total a w + debt a w o)%Z.
Proof.
  destruct o; cbn [d_step debt]; intros H.
  - rewrite (dnew_total a _ _ _ _ H). unfold oz, owes. cbn.
    destruct (decide (a0 = a)) as [->|N]; [rewrite !bool_decide_true by done|rewrite !bool_decide_false by congruence]; lia.
  - unfold d_dismiss in H. destruct (guards w !! s) as [g|] eqn:E; [|discriminate]. cbn in H. injection H as <-.
    rewrite (owes_at_eq _ _ _ _ E). unfold total. rewrite !owing_eq. cbn [guards]. rewrite (zlive_set _ _ _ _ _ E).
    unfold runs. cbn [ran]. unfold oz at 2. unfold owes. cbn [dismissed negb andb]. lia.
  - rewrite (swap_total a _ _ _ _ H). lia.
  - rewrite (dtor_total a _ _ _ H). lia.
  - rewrite (move_total a _ _ _ _ H). lia.
  - rewrite (copy_total a _ _ _ _ H). lia.
  - destruct (d_move w 0 src) as [w1| |] eqn:E1; [|discriminate..]. cbn in H.
    destruct (d_swap w1 0 s) as [w2| |] eqn:E2; [|discriminate..]. cbn in H.
    rewrite (dtor_total a _ _ _ H), (swap_total a _ _ _ _ E2), (move_total a _ _ _ _ E1). lia.
  - destruct (d_copy w 0 src) as [w1| |] eqn:E1; [|discriminate..]. cbn in H.
    destruct (d_swap w1 0 s) as [w2| |] eqn:E2; [|discriminate..]. cbn in H.
    rewrite (dtor_total a _ _ _ H), (swap_total a _ _ _ _ E2), (copy_total a _ _ _ _ E1). lia.
Qed.

Lemma run_total a os : forall w w', d_run w os = Ok w' -> total a w' = (total a w + debts a w os)%Z.
Proof.
  induction os as [|o os IH]; intros w w' H; cbn [d_run debts] in *.
  - injection H as <-. lia.
  - destruct (d_step w o) as [w1| |] eqn:E; [|discriminate..]. cbn in H.
    rewrite (IH _ _ H), (step_total a _ _ _ E). lia.
Qed.

Lemma ledger (os : list dop) (w : dworld) (a : N) :
  d_run d_empty os = Ok w -> (Z.of_nat (runs a w) + Z.of_nat (owing a w))%Z = debts a d_empty os.
Proof.
  intros H. pose proof (run_total a _ _ _ H) as G. unfold total in G. rewrite G. reflexivity.
Qed.

(** *** Which commands are defined *)
Lemma dtor_defined w s g : guards w !! s = Some g -> (exists w', d_dtor w s = Ok w') <-> can_die g.
Proof.
  intros H. unfold d_dtor. rewrite H. cbn. unfold can_die. destruct (dismissed g) eqn:D; cbn.
  - split; [by left|eauto].
  - destruct (exit_scope g) eqn:X; cbn; split; try (intros [? ?]; discriminate); eauto.
    intros [?|?]; [discriminate|congruence].
Qed.

Lemma assign_defined w s g g0 : guards w !! 0%N = None -> s <> 0%N -> guards w !! s = Some g ->
  (exists w', (w1 <~ dnew w 0 g0; w2 <~ d_swap w1 0 s; d_dtor w2 0) = Ok w') <-> can_die g.
Proof.
  intros H0 N H. unfold dnew. rewrite H0. cbn [obind]. 
  unfold d_swap. cbn [guards]. rewrite lookup_insert, lookup_insert_ne by congruence. rewrite H. cbn.
  apply dtor_defined. cbn. rewrite lookup_insert_ne by congruence. by rewrite lookup_insert.
Qed.

Lemma step_defined w o : names_ok w o -> (exists w', d_step w o = Ok w') <-> dies_well w o.
Proof.
  destruct o; cbn [names_ok dies_well d_step]; intros H.
  - unfold dnew. rewrite H. split; eauto.
  - unfold d_dismiss. destruct (guards w !! s); [cbn; split; eauto|done].
  - unfold d_swap. destruct H as [H1 H2]. destruct (guards w !! a); [|done]. destruct (guards w !! b); [cbn; split; eauto|done].
  - destruct (guards w !! s) as [g|] eqn:E; [|done]. rewrite (dtor_defined _ _ _ E). split; [intros C ? [= <-]; done|eauto].
  - unfold d_move, dnew. destruct H as [H1 H2]. destruct (guards w !! src); [|done]. cbn. rewrite H1. split; eauto.
  - unfold d_copy, dnew. destruct H as [H1 H2]. destruct (guards w !! src); [|done]. cbn. rewrite H1. split; eauto.
  - destruct H as (H0 & N1 & N2 & H1 & H2). unfold d_move. destruct (guards w !! src) as [gs|] eqn:E; [|done]. cbn [of_option obind].
    destruct (guards w !! s) as [g|] eqn:E2; [|done].
    rewrite (assign_defined w s g _ H0 N1 E2). split; [intros C ? [= <-]; done|eauto].
  - destruct H as (H0 & N1 & N2 & H1 & H2). unfold d_copy. destruct (guards w !! src) as [gs|] eqn:E; [|done]. cbn [of_option obind].
    destruct (guards w !! s) as [g|] eqn:E2; [|done].
    rewrite (assign_defined w s g _ H0 N1 E2). split; [intros C ? [= <-]; done|eauto].
Qed.

(** *** Histories without copies *)
Lemma owes_at_nonneg a w s : (0 <= owes_at a w s)%Z.
Proof. unfold owes_at. destruct (guards w !! s) as [g|]; [destruct (owes a g)|]; lia. Qed.

Lemma debts_made a os : Forall no_copy os -> forall w, (debts a w os <= Z.of_nat (made a os))%Z.
Proof.
  induction 1 as [|o os H _ IH]; intros w; [cbn; lia|]. cbn [debts].
  unfold made. rewrite filter_cons.
  assert (D : (debt a w o <= if decide (makes a o) then 1 else 0)%Z).
  { destruct o; cbn [debt makes]; try (destruct (decide _); try done; try lia); try done.
    - rewrite bool_decide_true by done. lia.
    - rewrite bool_decide_false by done. lia.
    - pose proof (owes_at_nonneg a w s). lia. }
  assert (G : ((match d_step w o with Ok w1 => debts a w1 os | _ => 0 end) <= Z.of_nat (made a os))%Z).
  { destruct (d_step w o); [apply IH|lia..]. }
  unfold made in G. destruct (decide (makes a o)); cbn [length]; lia.
Qed.

Lemma at_most_once (os : list dop) (w : dworld) (a : N) :
  Forall no_copy os -> d_run d_empty os = Ok w -> (runs a w + owing a w <= made a os)%nat.
Proof.
  intros H R. pose proof (ledger _ _ a R). pose proof (debts_made a os H d_empty). lia.
Qed.

(** A history with a move, a copy, an assignment, a dismissal: action 7 is owed by guards 1 and 3, guard 2 has nothing. *)
Definition defer_demo : list dop :=
  [DNew 1 7; DMove 2 1; DCopy 3 1; DNew 4 9; DDismiss 2; DAssignCopy 4 3; DDtor 2; DDtor 3].
Lemma defer_demo_ok : exists w, d_run d_empty defer_demo = Ok w /\ ran w = [9; 7]%N /\ owing 7 w = 2%nat /\ debts 7 d_empty defer_demo = 3%Z /\ debts 9 d_empty defer_demo = 1%Z.
Proof. eexists. split; [vm_compute; reflexivity|]. repeat split; vm_compute; reflexivity. Qed.
Lemma defer_demo_stuck : exists w, d_run d_empty [DNew 1 7; DMove 2 1]%N = Ok w /\ names_ok w (DDtor 2) /\ names_ok w (DAssignMove 1 2) /\ ~ dies_well w (DDtor 2) /\ dies_well w (DAssignMove 1 2).
Proof.
  eexists. split; [vm_compute; reflexivity|]. cbn. repeat split; try done; try discriminate.
  - intros H. destruct (H _ eq_refl) as [E|E]; [discriminate|]. apply E. reflexivity.
  - intros g [= <-]. right. discriminate.
Qed.
Lemma defer_demo_moves : Forall no_copy [DNew 1 7; DNew 2 7; DMove 3 1; DAssignMove 2 3; DDtor 1]%N /\ exists w, d_run d_empty [DNew 1 7; DNew 2 7; DMove 3 1; DAssignMove 2 3; DDtor 1]%N = Ok w /\ ran w = [7; 7]%N.
Proof. split; [repeat (apply Forall_cons_2; [exact I|]); apply Forall_nil_2|]. eexists. split; vm_compute; reflexivity. Qed.
