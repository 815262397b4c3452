From stdpp Require Import gmap.
From Coq Require Import Lia.
From Verif Require Import Base TraitsModel InvokeModel InvokeProofs SpecialModel SpecialSpec SpecialProofs DeleterSpec DeleterModel.
Local Open Scope N_scope.
Local Open Scope outcome_scope.

(** ** What compiles *)
Lemma back_forall l : forallb (fun x => binds_back (fst x) (snd x)) l = true <->
  Forall (fun x => snd x <> LV /\ (snd x = RV -> cons (fst x) RV = true)) l.
Proof.
  rewrite forallb_forall, Forall_forall. split; intros H [a c] Hx.
  - apply elem_of_list_In in Hx. specialize (H _ Hx). cbn in *. destruct c; cbn in *; split; congruence.
  - apply elem_of_list_In in Hx. destruct (H _ Hx) as [H1 H2]. cbn in *. destruct c; cbn; [congruence|reflexivity|auto].
Qed.
Lemma copied_iff l : forallb (fun x : caps * cat => cons (fst x) CLV) l = true <-> Forall (fun x => cons (fst x) CLV = true) l.
Proof. rewrite forallb_forall, Forall_forall. split; intros H x Hx; apply H; apply elem_of_list_In; exact Hx. Qed.
Lemma tuple_from_variable l : (exists x, x ∈ l /\ snd x = LV) ->
  (tuple_from l = true <-> Forall (fun x => cons (fst x) CLV = true) l).
Proof.
  intros ([a c] & Hx & E). cbn in E. subst c. unfold tuple_from.
  destruct (forallb (fun x => binds_back _ _) l) eqn:F; [|apply copied_iff].
  apply back_forall in F. rewrite Forall_forall in F. destruct (F _ Hx) as [X _]. now elim X.
Qed.
Lemma tuple_from_others l : (forall x, x ∈ l -> snd x <> LV) ->
  (forall a c, (a, c) ∈ l -> cons a CLV = true -> cons a RV = true) ->
  (tuple_from l = true <-> elements_built l).
Proof.
  intros H R. unfold tuple_from, elements_built.
  destruct (forallb (fun x => binds_back _ _) l) eqn:F; cbn [andb].
  - destruct (existsb _ l) eqn:E.
    + rewrite forallb_forall, Forall_forall. split; intros G [a c] Hx.
      * apply elem_of_list_In in Hx as Hy. specialize (G _ Hy). cbn in *. apply H in Hx. cbn in Hx. destruct c; [congruence|exact G|exact G].
      * apply elem_of_list_In in Hx. specialize (G _ Hx). apply H in Hx. cbn in *. destruct c; [congruence|exact G|exact G].
    + rewrite copied_iff, !Forall_forall. split; intros G [a c] Hx; specialize (G _ Hx); cbn in *.
      * destruct c; cbn; [exact G|exact G|exact (R _ _ Hx G)].
      * destruct c; cbn in G; [exact G|exact G|]. exfalso.
        assert (existsb (fun x : caps * cat => temporary (snd x)) l = true) as Y; [|rewrite Y in E; discriminate].
        apply existsb_exists. exists (a, RV). split; [apply elem_of_list_In; exact Hx|reflexivity].
  - rewrite copied_iff, !Forall_forall. split; intros G.
    + intros [a c] Hx. specialize (G _ Hx). cbn in *. destruct c; cbn; [exact G|exact G|exact (R _ _ Hx G)].
    + exfalso. assert (forallb (fun x => binds_back (fst x) (snd x)) l = true) as Y; [|rewrite Y in F; discriminate].
      apply back_forall, Forall_forall. intros [a c] Hx. split; [exact (H _ Hx)|]. cbn. intros ->. exact (G _ Hx).
Qed.

Lemma impl_from_eq d c : impl_from d c = holds d && cons (dcaps d) CLV.
Proof.
  unfold impl_from. f_equal. apply eq_true_iff_eq. rewrite tuple_from_variable.
  - rewrite !Forall_cons, Forall_nil. cbn. intuition.
  - exists (scalar, LV). split; [left|reflexivity].
Qed.
Lemma ref_never t : holds (DRef t) = false.
Proof.
  change (declares (TLref t) = false). destruct (declares (TLref t)) eqn:E; [|reflexivity]. apply declares_spec in E as [X _]. now elim (X t).
Qed.
Lemma compile_class a b : let d := DClass a b in
  from_pointer d = b /\ (forall c, from_both d c = cons a CLV) /\ from_move d = cons a CLV /\ move_assign d = asg a RV.
Proof. cbv zeta. repeat split. intros c. apply impl_from_eq. apply impl_from_eq. Qed.

(** ** Which deleter deletes what *)
Section calls.
  Context {X D : Type} (suits : D -> X -> bool) (mv self : D -> D) (init : option D).
  Notation book := (book X D). Notation st := (st X D).
  Notation keep := (keep suits init). Notation keep_all := (keep_all suits init).
  Notation exec := (exec suits mv self init). Notation run := (run suits mv self init).

  Definition pact_of (v : option N * option D) (h : option N * option D) : Prop := fst v = fst h /\ (snd v = None \/ snd v = snd h).
  Definition matches (b : book) (w : st) : Prop :=
    live w = objs b /\ nxt w = next b /\ calls w = done b /\
    forall s, match pacts b !! s, hnd w !! s with
              | Some v, Some h => pact_of v h | None, None => True | _, _ => False end.

  Lemma matches_some b w s v : matches b w -> pacts b !! s = Some v -> exists h, hnd w !! s = Some h /\ pact_of v h.
  Proof. intros (_ & _ & _ & M) E. specialize (M s). rewrite E in M. destruct (hnd w !! s); [eauto|easy]. Qed.
  Lemma matches_none b w s : matches b w -> pacts b !! s = None -> hnd w !! s = None.
  Proof. intros (_ & _ & _ & M) E. specialize (M s). rewrite E in M. destruct (hnd w !! s); [easy|reflexivity]. Qed.
  Lemma matches_put b w s v h : matches b w -> pact_of v h -> matches (agree s v b) (write s h w).
  Proof.
    intros (A & B & C & M) P. repeat split; try assumption. intros t. cbn. destruct (decide (t = s)) as [->|N].
    - rewrite !lookup_insert. exact P.
    - rewrite !lookup_insert_ne by congruence. apply M.
  Qed.
  Lemma matches_dispose b w v h b' : matches b w -> pact_of v h -> dispose suits v b = Some b' ->
    exists w', match fst h with Some a => call suits (snd h) a w | None => Ok w end = Ok w' /\ matches b' w' /\ hnd w' = hnd w.
  Proof.
    intros M [E P] H. destruct v as [[p|] d], h as [p' d']; cbn in *; subst p'.
    - destruct d as [d|]; [|discriminate]. destruct P as [P|P]; [discriminate|]. subst d'. cbn.
      destruct (objs b !! p) as [x|] eqn:O; cbn in H; [|discriminate].
      assert (live w !! p = Some x) as O' by (rewrite (proj1 M); exact O). rewrite O'.
      destruct (suits d x); [|discriminate]. injection H as <-. eexists. split; [reflexivity|]. split; [|reflexivity].
      destruct M as (A & B & C & M). repeat split; cbn; [rewrite A; reflexivity|exact B|rewrite C; reflexivity|exact M].
    - injection H as <-. eauto.
  Qed.
  Lemma agree_dispose v s u b : dispose suits v (agree s u b) = option_map (agree s u) (dispose suits v b).
  Proof. destruct v as [[p|] [d|]]; try reflexivity. cbn. destruct (objs b !! p); [|reflexivity]. cbn. destruct (suits d x); reflexivity. Qed.

  Lemma write_write s u v (w : st) : write s u (write s v w) = write s u w.
  Proof. unfold write. cbn. rewrite insert_insert. reflexivity. Qed.

  Lemma step_ok b w o b' : matches b w -> keep o b = Some b' -> exists w', exec o w = Ok w' /\ matches b' w'.
  Proof.
    intros M H. destruct o as [x|s p|s p d|s src|s src|s|s p|s|a c|s]; cbn [DeleterSpec.keep DeleterModel.exec] in *.
    - injection H as <-. eexists. split; [reflexivity|]. destruct M as (A & B & C & M).
      repeat split; cbn; [rewrite A, B; reflexivity|rewrite B; reflexivity|exact C|exact M].
    - destruct (pacts b !! s) eqn:E; [discriminate|]. destruct (free_to_take p b); [|discriminate]. injection H as <-.
      unfold of_pointer, declare. rewrite (matches_none _ _ _ M E). eexists. split; [reflexivity|]. apply matches_put; [exact M|]. split; [reflexivity|auto].
    - destruct (pacts b !! s) eqn:E; [discriminate|]. destruct (free_to_take p b); [|discriminate]. injection H as <-.
      unfold of_both, declare. rewrite (matches_none _ _ _ M E). eexists. split; [reflexivity|]. apply matches_put; [exact M|]. split; [reflexivity|auto].
    - destruct (pacts b !! s) eqn:E; [discriminate|]. destruct (pacts b !! src) as [v|] eqn:F; [|discriminate]. injection H as <-.
      destruct (matches_some _ _ _ _ M F) as ([q e] & G & P).
      unfold move_from, release, read. rewrite G. cbn. rewrite lookup_insert. cbn. unfold declare. cbn.
      assert (s <> src) by congruence. rewrite lookup_insert_ne by congruence. rewrite (matches_none _ _ _ M E).
      eexists. split; [reflexivity|]. apply matches_put; [|exact P]. apply matches_put; [exact M|]. split; cbn; auto.
    - destruct (s =? src) eqn:N; [discriminate|]. apply N.eqb_neq in N.
      destruct (pacts b !! s) as [v|] eqn:E; [|discriminate]. destruct (pacts b !! src) as [v'|] eqn:F; [|discriminate].
      destruct (matches_some _ _ _ _ M F) as ([q' e'] & G & P'). destruct (matches_some _ _ _ _ M E) as ([q e] & G' & P).
      unfold assign, release, read. rewrite G. cbn [of_option obind].
      unfold reset, read. cbn [hnd write]. rewrite lookup_insert_ne by congruence. rewrite G'. cbn [of_option obind].
      rewrite agree_dispose, agree_dispose in H. destruct (dispose suits v b) as [b1|] eqn:DI; [|discriminate]. cbn in H. injection H as <-.
      destruct (matches_dispose (agree s (q', snd v) (agree src (None, None) b)) (write s (q', e) (write src (None, e') w)) v (q, e)
                  (agree s (q', snd v) (agree src (None, None) b1))) as (w' & C & M' & HH).
      { apply matches_put; [apply matches_put; [exact M|split; cbn; auto]|]. split; [reflexivity|]. destruct P as [_ P]. exact P. }
      { exact P. }
      { rewrite agree_dispose, agree_dispose, DI. reflexivity. }
      cbn [fst snd] in C. rewrite C. cbn [obind]. rewrite HH. cbn [hnd write].
      rewrite lookup_insert_ne by congruence. rewrite lookup_insert. cbn [of_option obind]. rewrite lookup_insert. cbn [of_option obind].
      destruct (N.eqb_spec s src) as [X0|_]; [easy|]. eexists. split; [reflexivity|].
      rewrite lookup_insert_ne by congruence. rewrite lookup_insert_ne by congruence. rewrite lookup_insert. cbn.
      assert (agree s v' (agree src (None, None) b1) =
              agree src (None, None) (agree s v' (agree s (q', snd v) (agree src (None, None) b1)))) as ->.
      { unfold agree. cbn. f_equal. rewrite insert_insert. rewrite (insert_commute _ src s) by congruence. rewrite insert_insert. reflexivity. }
      apply matches_put; [apply matches_put; [exact M'|]|]. { destruct P' as [P1 P2]. split; [exact P1|exact P2]. } { split; cbn; auto. }
    - destruct (pacts b !! s) as [v|] eqn:E; [|discriminate]. destruct (matches_some _ _ _ _ M E) as ([q e] & G & P).
      unfold assign_null, reset, read. rewrite G. cbn [of_option obind].
      destruct (matches_dispose (agree s (None, snd v) b) (write s (None, e) w) v (q, e) b') as (w' & C & M' & _); [|exact P|exact H|].
      { apply matches_put; [exact M|]. split; [reflexivity|exact (proj2 P)]. }
      exists w'. split; [exact C|exact M'].
    - destruct (pacts b !! s) as [v|] eqn:E; [|discriminate]. destruct (free_to_take p b); [|discriminate].
      destruct (matches_some _ _ _ _ M E) as ([q e] & G & P).
      unfold reset, read. rewrite G. cbn [of_option obind].
      destruct (matches_dispose (agree s (p, snd v) b) (write s (p, e) w) v (q, e) b') as (w' & C & M' & _); [|exact P|exact H|].
      { apply matches_put; [exact M|]. split; [reflexivity|exact (proj2 P)]. }
      exists w'. split; [exact C|exact M'].
    - destruct (pacts b !! s) as [v|] eqn:E; [|discriminate]. injection H as <-.
      destruct (matches_some _ _ _ _ M E) as ([q e] & G & P). unfold release, read. rewrite G. cbn.
      eexists. split; [reflexivity|]. apply matches_put; [exact M|]. split; [reflexivity|exact (proj2 P)].
    - destruct (pacts b !! a) as [v|] eqn:E; [|discriminate]. destruct (pacts b !! c) as [v'|] eqn:F; [|discriminate]. injection H as <-.
      destruct (matches_some _ _ _ _ M E) as ([q e] & G & P). destruct (matches_some _ _ _ _ M F) as ([q' e'] & G' & P').
      unfold swap, read. rewrite G. cbn [of_option obind t_move fst snd]. cbn [hnd write].
      destruct (N.eqb_spec a c) as [<-|N].
      + rewrite lookup_insert. cbn [of_option obind hnd write]. rewrite lookup_insert. cbn [of_option obind]. cbn.
        eexists. split; [reflexivity|]. assert (v' = v) as -> by congruence. unfold agree, write. cbn. rewrite !insert_insert.
        apply (matches_put b w a v (q, e) M P).
      + rewrite lookup_insert_ne by congruence. rewrite G'. cbn [of_option obind]. cbn [t_assign t_move e_swap fst snd].
        cbn [hnd write]. rewrite lookup_insert. cbn [of_option obind]. eexists. split; [reflexivity|].
        rewrite !write_write. cbn.
        replace (write c (q, e) (write a (q', e') (write a (q, option_map mv e) w))) with (write c (q, e) (write a (q', e') w))
          by (rewrite write_write; reflexivity).
        apply matches_put; [apply matches_put; [exact M|exact P']|exact P].
    - destruct (pacts b !! s) as [v|] eqn:E; [|discriminate]. destruct (matches_some _ _ _ _ M E) as ([q e] & G & P).
      unfold destroy, read. rewrite G. cbn [of_option obind].
      destruct (dispose suits v b) as [b1|] eqn:DI; [|exfalso; destruct v as [[p|] [d|]]; cbn in H, DI; try discriminate; destruct (objs b !! p); cbn in *; [destruct (suits d x)|]; discriminate].
      destruct (matches_dispose b w v (q, e) b1 M P DI) as (w' & C & M' & HH). cbn [fst snd] in C. rewrite C. cbn [obind].
      eexists. split; [reflexivity|]. destruct M' as (A & B & CC & M').
      assert (b' = Book (objs b1) (next b1) (delete s (pacts b1)) (done b1)) as ->.
      { destruct v as [[p|] [d|]]; cbn in H, DI; try discriminate; [destruct (objs b !! p); cbn in *; [destruct (suits d x)|]; try discriminate| |]; injection H as <-; injection DI as <-; reflexivity. }
      repeat split; cbn; try assumption. intros t. destruct (decide (t = s)) as [->|N].
      + rewrite !lookup_delete. exact I.
      + rewrite !lookup_delete_ne by congruence. apply M'.
  Qed.
  Lemma run_ok os : forall b w b', matches b w -> keep_all os b = Some b' -> exists w', run os w = Ok w' /\ matches b' w'.
  Proof.
    induction os as [|o os IH]; intros b w b' M H.
    - injection H as <-. exists w. split; [reflexivity|exact M].
    - cbn in H. destruct (keep o b) as [b1|] eqn:K; [|discriminate]. cbn in H.
      destruct (step_ok b w o b1 M K) as (w1 & E & M1). cbn. rewrite E. exact (IH _ _ _ M1 H).
  Qed.
  Lemma matches_start : matches blank start.
  Proof. repeat split. Qed.

  Lemma keep_app os1 os2 b : keep_all (os1 ++ os2) b = (keep_all os1 b ≫= keep_all os2).
  Proof. revert b. induction os1 as [|o os1 IH]; intros b; [reflexivity|]. cbn. destruct (keep o b); [apply IH|reflexivity]. Qed.

  (** *** An object stays with its deleter *)
  Definition guarded (p : N) (d : D) (b : book) : Prop := (p, d) ∈ done b \/ exists s, pacts b !! s = Some (Some p, Some d).
  Lemma dispose_done v b b' : dispose suits v b = Some b' ->
    pacts b' = pacts b /\ (forall p d, v = (Some p, Some d) -> (p, d) ∈ done b') /\ (forall x, x ∈ done b -> x ∈ done b').
  Proof.
    intros H. destruct v as [[p|] [d|]]; cbn in H; try discriminate.
    - destruct (objs b !! p); cbn in H; [|discriminate]. destruct (suits d x); [|discriminate]. injection H as <-. cbn.
      split; [reflexivity|]. split; [intros ? ? [= -> ->]; left|intros ? ?; right; assumption].
    - injection H as <-. split; [reflexivity|]. split; [discriminate|auto].
    - injection H as <-. split; [reflexivity|]. split; [discriminate|auto].
  Qed.
  Lemma guarded_step p d o b b' : (forall s, o <> Release s) -> guarded p d b -> keep o b = Some b' -> guarded p d b'.
  Proof.
    intros R G H. destruct o as [x|s q|s q e|s src|s src|s|s q|s|a c|s]; cbn [DeleterSpec.keep] in H.
    - injection H as <-. exact G.
    - destruct (pacts b !! s) eqn:E; [discriminate|]. destruct (free_to_take q b); [|discriminate]. injection H as <-.
      destruct G as [G|[t G]]; [left; exact G|]. right. exists t. cbn. rewrite lookup_insert_ne by congruence. exact G.
    - destruct (pacts b !! s) eqn:E; [discriminate|]. destruct (free_to_take q b); [|discriminate]. injection H as <-.
      destruct G as [G|[t G]]; [left; exact G|]. right. exists t. cbn. rewrite lookup_insert_ne by congruence. exact G.
    - destruct (pacts b !! s) eqn:E; [discriminate|]. destruct (pacts b !! src) as [v|] eqn:F; [|discriminate]. injection H as <-.
      destruct G as [G|[t G]]; [left; exact G|]. right. destruct (decide (t = src)) as [->|N].
      + exists s. cbn. rewrite lookup_insert. congruence.
      + exists t. cbn. rewrite lookup_insert_ne by congruence. rewrite lookup_insert_ne by congruence. exact G.
    - destruct (N.eqb_spec s src) as [|N]; [discriminate|].
      destruct (pacts b !! s) as [v|] eqn:E; [|discriminate]. destruct (pacts b !! src) as [v'|] eqn:F; [|discriminate].
      destruct (dispose_done _ _ _ H) as (P & L & I). destruct G as [G|[t G]]; [left; apply I; exact G|].
      destruct (decide (t = s)) as [->|N1]; [left; apply L; congruence|]. right. destruct (decide (t = src)) as [->|N2].
      + exists s. rewrite P. cbn. rewrite lookup_insert. congruence.
      + exists t. rewrite P. cbn. rewrite lookup_insert_ne by congruence. rewrite lookup_insert_ne by congruence. exact G.
    - destruct (pacts b !! s) as [v|] eqn:E; [|discriminate].
      destruct (dispose_done _ _ _ H) as (P & L & I). destruct G as [G|[t G]]; [left; apply I; exact G|].
      destruct (decide (t = s)) as [->|N1]; [left; apply L; congruence|]. right. exists t. rewrite P. cbn. rewrite lookup_insert_ne by congruence. exact G.
    - destruct (pacts b !! s) as [v|] eqn:E; [|discriminate]. destruct (free_to_take q b); [|discriminate].
      destruct (dispose_done _ _ _ H) as (P & L & I). destruct G as [G|[t G]]; [left; apply I; exact G|].
      destruct (decide (t = s)) as [->|N1]; [left; apply L; congruence|]. right. exists t. rewrite P. cbn. rewrite lookup_insert_ne by congruence. exact G.
    - now elim (R s).
    - destruct (pacts b !! a) as [v|] eqn:E; [|discriminate]. destruct (pacts b !! c) as [v'|] eqn:F; [|discriminate]. injection H as <-.
      destruct G as [G|[t G]]; [left; exact G|]. right. destruct (decide (t = a)) as [->|N1].
      + exists c. cbn. rewrite lookup_insert. congruence.
      + destruct (decide (t = c)) as [->|N2].
        * exists a. cbn. rewrite lookup_insert_ne by congruence. rewrite lookup_insert. congruence.
        * exists t. cbn. rewrite lookup_insert_ne by congruence. rewrite lookup_insert_ne by congruence. exact G.
    - destruct (pacts b !! s) as [v|] eqn:E; [|discriminate].
      destruct (dispose_done _ _ _ H) as (P & L & I). destruct G as [G|[t G]]; [left; apply I; exact G|].
      destruct (decide (t = s)) as [->|N1]; [left; apply L; congruence|]. right. exists t. rewrite P. cbn. rewrite lookup_delete_ne by congruence. exact G.
  Qed.
  Lemma guarded_all p d os : forall b b', (forall s, Release s ∉ os) -> guarded p d b -> keep_all os b = Some b' -> guarded p d b'.
  Proof.
    induction os as [|o os IH]; intros b b' R G H.
    - injection H as <-. exact G.
    - cbn in H. destruct (keep o b) as [b1|] eqn:K; [|discriminate]. cbn in H. apply (IH b1 b').
      + intros s Hs. apply (R s). right. exact Hs.
      + apply (guarded_step p d o b); [|exact G|exact K]. intros s ->. apply (R s). left.
      + exact H.
  Qed.

  (** *** Each object is deleted once *)
  Definition sound (b : book) : Prop :=
    NoDup (map fst (done b)) /\ 1 <= next b /\
    (forall p, is_Some (objs b !! p) <-> 1 <= p < next b /\ p ∉ map fst (done b)) /\
    (forall p, p ∈ map fst (done b) -> 1 <= p < next b).
  Lemma sound_dispose v b b' : sound b -> dispose suits v b = Some b' -> sound b'.
  Proof.
    intros S H. destruct v as [[p|] [d|]]; cbn in H; try discriminate; [|injection H as <-; exact S|injection H as <-; exact S].
    destruct (objs b !! p) as [x|] eqn:O; cbn in H; [|discriminate]. destruct (suits d x); [|discriminate]. injection H as <-.
    destruct S as (A & B & C & E). destruct (proj1 (C p)) as [C1 C2]; [rewrite O; eauto|].
    split; [cbn; constructor; assumption|]. split; [exact B|]. split.
    - intros q. cbn. rewrite not_elem_of_cons. destruct (decide (q = p)) as [->|N].
      + rewrite lookup_delete. split; [intros [? ?]; discriminate|intros [_ [X0 _]]; now elim X0].
      + rewrite lookup_delete_ne by congruence. rewrite C. tauto.
    - intros q. cbn. rewrite elem_of_cons. intros [->|Hq]; [exact C1|exact (E _ Hq)].
  Qed.
  Lemma sound_agree s v b : sound b -> sound (agree s v b).
  Proof. intros S. exact S. Qed.
  Lemma sound_step o b b' : sound b -> keep o b = Some b' -> sound b'.
  Proof.
    intros S H. destruct o as [x|s q|s q e|s src|s src|s|s q|s|a c|s]; cbn [DeleterSpec.keep] in H.
    - injection H as <-. destruct S as (A & B & C & E). split; [exact A|]. split; [cbn; clear - B; lia|]. split.
      + intros q. cbn. destruct (decide (q = next b)) as [->|N].
        * rewrite lookup_insert. split; [intros _|eauto]. split; [clear - B; lia|]. intros X0. apply E in X0. clear - X0. lia.
        * rewrite lookup_insert_ne by congruence. rewrite C. split; intros [X1 X2]; (split; [clear - X1 N; lia|exact X2]).
      + intros q X0. cbn in *. apply E in X0. clear - X0. lia.
    - destruct (pacts b !! s); [discriminate|]. destruct (free_to_take q b); [|discriminate]. injection H as <-. exact S.
    - destruct (pacts b !! s); [discriminate|]. destruct (free_to_take q b); [|discriminate]. injection H as <-. exact S.
    - destruct (pacts b !! s); [discriminate|]. destruct (pacts b !! src); [|discriminate]. injection H as <-. exact S.
    - destruct (s =? src); [discriminate|]. destruct (pacts b !! s); [|discriminate]. destruct (pacts b !! src); [|discriminate].
      revert H. apply sound_dispose. exact S.
    - destruct (pacts b !! s); [|discriminate]. revert H. apply sound_dispose. exact S.
    - destruct (pacts b !! s); [|discriminate]. destruct (free_to_take q b); [|discriminate]. revert H. apply sound_dispose. exact S.
    - destruct (pacts b !! s); [|discriminate]. injection H as <-. exact S.
    - destruct (pacts b !! a); [|discriminate]. destruct (pacts b !! c); [|discriminate]. injection H as <-. exact S.
    - destruct (pacts b !! s); [|discriminate]. revert H. apply sound_dispose. exact S.
  Qed.
  Lemma sound_all os : forall b b', sound b -> keep_all os b = Some b' -> sound b'.
  Proof.
    induction os as [|o os IH]; intros b b' S H; [injection H as <-; exact S|].
    cbn in H. destruct (keep o b) as [b1|] eqn:K; [|discriminate]. exact (IH _ _ (sound_step _ _ _ S K) H).
  Qed.
  Lemma sound_blank : sound blank.
  Proof.
    split; [constructor|]. split; [cbn; lia|]. split; [|intros p X0; cbn in X0; apply elem_of_nil in X0; easy].
    intros p. cbn. rewrite lookup_empty. split; [intros [? ?]; discriminate|intros [X0 _]; lia].
  Qed.

  Theorem calls_ok os b : keep_all os blank = Some b -> exists w, run os start = Ok w /\
    live w = objs b /\ calls w = done b /\ (forall s, fst <$> hnd w !! s = fst <$> pacts b !! s) /\
    (forall s p d, pacts b !! s = Some (p, Some d) -> hnd w !! s = Some (p, Some d)).
  Proof.
    intros H. destruct (run_ok os _ _ _ matches_start H) as (w & E & M). exists w. split; [exact E|].
    destruct M as (A & B & C & M). split; [exact A|]. split; [exact C|]. split.
    - intros s. specialize (M s). destruct (pacts b !! s) as [v|], (hnd w !! s) as [h|]; try easy. cbn. destruct M as [M _]. rewrite M. reflexivity.
    - intros s p d E1. specialize (M s). rewrite E1 in M. destruct (hnd w !! s) as [[q e]|]; [|easy].
      destruct M as [M1 [M2|M2]]; cbn in *; congruence.
  Qed.
  Theorem calls_once os b : keep_all os blank = Some b -> exists w, run os start = Ok w /\ NoDup (map fst (calls w)) /\
    forall p, is_Some (live w !! p) <-> 1 <= p < nxt w /\ p ∉ map fst (calls w).
  Proof.
    intros H. destruct (run_ok os _ _ _ matches_start H) as (w & E & A & B & C & _). exists w. split; [exact E|].
    destruct (sound_all _ _ _ sound_blank H) as (S1 & _ & S2 & _). rewrite A, B, C. split; [exact S1|exact S2].
  Qed.
  Theorem calls_pact os1 os2 b1 b2 s p d : keep_all os1 blank = Some b1 -> pacts b1 !! s = Some (Some p, Some d) ->
    keep_all os2 b1 = Some b2 -> (forall t, Release t ∉ os2) ->
    exists w, run (os1 ++ os2) start = Ok w /\ ((p, d) ∈ calls w \/ exists t, hnd w !! t = Some (Some p, Some d)).
  Proof.
    intros H1 E H2 R. assert (keep_all (os1 ++ os2) blank = Some b2) as H by (rewrite keep_app, H1; exact H2).
    destruct (calls_ok _ _ H) as (w & X0 & _ & C & _ & P). exists w. split; [exact X0|].
    destruct (guarded_all p d os2 b1 b2 R) as [G|[t G]]; [right; exists s; exact E|exact H2| |].
    - left. rewrite C. exact G.
    - right. exists t. exact (P _ _ _ G).
  Qed.
  Theorem self_assign s p d (w : st) : hnd w !! s = Some (p, d) ->
    DeleterModel.assign suits mv self s s w = Ok (write s (p, option_map self d) w).
  Proof.
    intros E. unfold assign, release, read. rewrite E. cbn. unfold reset, read. cbn. rewrite lookup_insert. cbn. rewrite lookup_insert. cbn.
    rewrite N.eqb_refl. rewrite !write_write. reflexivity.
  Qed.
  Theorem calls_unfit os b s p d x : keep_all os blank = Some b -> pacts b !! s = Some (Some p, Some d) -> objs b !! p = Some x -> suits d x = false ->
    exists w, run os start = Ok w /\ exec (End s) w = UB /\ exec (Null s) w = UB /\ (forall q, exec (Reset s q) w = UB) /\
      forall src, src <> s -> is_Some (pacts b !! src) -> exec (Assign s src) w = UB.
  Proof.
    intros H E O U. destruct (calls_ok _ _ H) as (w & X0 & L & _ & F & P). exists w. split; [exact X0|].
    specialize (P _ _ _ E). assert (live w !! p = Some x) as O' by (rewrite L; exact O).
    split; [|split; [|split] ].
    - cbn. unfold destroy, read. rewrite P. cbn. rewrite O', U. reflexivity.
    - cbn. unfold assign_null, reset, read. rewrite P. cbn. rewrite O', U. reflexivity.
    - intros q. cbn. unfold reset, read. rewrite P. cbn. rewrite O', U. reflexivity.
    - intros src N [v V]. specialize (F src). rewrite V in F. destruct (hnd w !! src) as [[q e]|] eqn:G; [|discriminate].
      cbn. unfold assign, release, read. rewrite G. cbn [of_option obind]. unfold reset, read. cbn [hnd write]. rewrite lookup_insert_ne by congruence.
      rewrite P. cbn. rewrite O', U. reflexivity.
  Qed.
End calls.

(** ** Cases *)
(** new or new[], delete or delete[] *)
Definition form (d x : bool) : bool := Bool.eqb d x.
(** deleters that are numbers; one that was moved from is 0 *)
Definition numbered (d : N) (x : unit) : bool := negb (d =? 0).
Definition busy : list (op unit N) :=
  [New (); New (); New (); OfBoth 1 (Some 1) 7; OfBoth 2 (Some 2) 8; Move 3 1; Swap 2 3; Assign 3 2; Reset 3 (Some 3)].
