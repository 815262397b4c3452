(** Facts about reachable deques, queues and stacks. *)
From stdpp Require Import gmap list.
From Coq Require Import ZArith Lia ZifyBool ZifyNat.
From Verif Require Import Base ObjModel ObjSpec ObjProofs DequeModel DequeSpec DequeProofs DequeOps DequeRun.
Local Open Scope Z_scope.
Local Open Scope outcome_scope.
Ltac Zify.zify_post_hook ::= Z.div_mod_to_equations.

Section facts.
Context {A : Type} (esz : Z).
Notation val := (A + nat)%type.
Notation mem := (mem val).
Notation store := (gmap nat (sq A)).
Notation env := (gmap nat deq).
Implicit Types (m : mem) (s : store) (e : env) (q : sq A) (d : deq) (ls : gmap nat (list A)).

(** ** Every operation is a sequence of primitive steps *)
Ltac to_reach := repeat match goal with
  | H : alloc_buf _ _ _ = Ok _ |- _ => apply prim_alloc in H; apply reach1 in H
  | H : free_buf _ _ = Ok _ |- _ => apply prim_free in H; apply reach1 in H
  | H : ctor _ _ _ = Ok _ |- _ => apply prim_ctor in H; apply reach1 in H
  | H : dtor _ _ = Ok _ |- _ => apply prim_dtor in H; apply reach1 in H
  | H : assign _ _ _ = Ok _ |- _ => apply prim_assign in H; apply reach1 in H
  | H : read_arg _ _ = Ok _ |- _ => apply reach_read_arg in H
  end.
Ltac chain := solve [repeat first [eassumption | apply reach_refl | eapply reach_trans; [eassumption|]]].
Lemma reach_store p b m m' : store_ptr p b m = Ok m' -> reach m m'.
Proof. unfold store_ptr. intros H. inv_ok; to_reach; chain. Qed.
Lemma reach_drop k : forall p m m', drop_ptrs k p m = Ok m' -> reach m m'.
Proof. induction k as [|k IH]; intros p m m' H; cbn [drop_ptrs] in H; inv_ok; [constructor|..]; apply IH in H; to_reach; chain. Qed.
Lemma reach_free_ptrs p m m' : free_ptrs p m = Ok m' -> reach m m'.
Proof. unfold free_ptrs. intros H. destruct p; inv_ok; [constructor|]. apply reach_drop in E0. to_reach. chain. Qed.
Lemma reach_alloc_blocks k : forall p i m m', alloc_blocks esz k p i m = Ok m' -> reach m m'.
Proof.
  induction k as [|k IH]; intros p i m m' H; cbn [alloc_blocks] in H; inv_ok; [constructor|].
  destruct p0 as [|b j]; [discriminate|]. inv_ok. apply IH in H. apply reach_store in E1. to_reach. chain.
Qed.
Lemma reach_alloc_control n i j m r m' : alloc_control esz n i j m = Ok (r, m') -> reach m m'.
Proof. unfold alloc_control. intros H. inv_ok. apply reach_alloc_blocks in E0. to_reach. chain. Qed.
Lemma reach_copy k : forall i o p p' m m', copy_ptrs k i o p p' m = Ok m' -> reach m m'.
Proof. induction k as [|k IH]; intros i o p p' m m' H; cbn [copy_ptrs] in H; inv_ok; [constructor|]. apply IH in H. apply reach_store in E2. chain. Qed.
Lemma reach_ensure_front n d m d' m' : ensure_front esz n d m = Ok (d', m') -> reach m m'.
Proof.
  unfold ensure_front. intros H.
  match type of H with (if ?b then _ else _) = _ => destruct b end; [inv_ok; constructor|].
  inv_ok; repeat match goal with
  | H : alloc_control _ _ _ _ _ = Ok _ |- _ => apply reach_alloc_control in H
  | H : free_ptrs _ _ = Ok _ |- _ => apply reach_free_ptrs in H
  | H : copy_ptrs _ _ _ _ _ _ = Ok _ |- _ => apply reach_copy in H end; chain.
Qed.
Lemma reach_ensure_back n d m d' m' : ensure_back esz n d m = Ok (d', m') -> reach m m'.
Proof.
  unfold ensure_back. intros H.
  match type of H with (if ?b then _ else _) = _ => destruct b end; [inv_ok; constructor|].
  inv_ok; repeat match goal with
  | H : alloc_control _ _ _ _ _ = Ok _ |- _ => apply reach_alloc_control in H
  | H : free_ptrs _ _ = Ok _ |- _ => apply reach_free_ptrs in H
  | H : copy_ptrs _ _ _ _ _ _ = Ok _ |- _ => apply reach_copy in H end; chain.
Qed.
Lemma reach_emplace_back a d m d' m' : emplace_back esz a d m = Ok (d', m') -> reach m m'.
Proof. unfold emplace_back. intros H. inv_ok. apply reach_ensure_back in E. to_reach. chain. Qed.
Lemma reach_emplace_front a d m d' m' : emplace_front esz a d m = Ok (d', m') -> reach m m'.
Proof. unfold emplace_front. intros H. inv_ok. apply reach_ensure_front in E. to_reach. chain. Qed.
Lemma reach_pop_front d m d' m' : pop_front d m = Ok (d', m') -> reach m m'.
Proof. unfold pop_front. intros H. inv_ok. to_reach. chain. Qed.
Lemma reach_pop_back d m d' m' : pop_back d m = Ok (d', m') -> reach m m'.
Proof. unfold pop_back. intros H. inv_ok. to_reach. chain. Qed.
Lemma reach_destroy_iter k : forall i d m m', destroy_iter k i d m = Ok m' -> reach m m'.
Proof. induction k as [|k IH]; intros i d m m' H; cbn [destroy_iter] in H; inv_ok; [constructor|]. apply IH in H. to_reach. chain. Qed.
Lemma reach_clear d m d' m' : dclear d m = Ok (d', m') -> reach m m'.
Proof. unfold dclear. intros H. inv_ok; [constructor|]. match goal with K : destroy_iter _ _ _ _ = Ok _ |- _ => apply reach_destroy_iter in K end. chain. Qed.
Lemma reach_free_blocks k : forall i p m m', free_blocks k i p m = Ok m' -> reach m m'.
Proof. induction k as [|k IH]; intros i p m m' H; cbn [free_blocks] in H; inv_ok; [constructor|]. apply IH in H. to_reach. chain. Qed.
Lemma reach_destroy d m m' : ddestroy d m = Ok m' -> reach m m'.
Proof. unfold ddestroy. intros H. inv_ok. apply reach_clear in E. apply reach_free_blocks in E0. apply reach_free_ptrs in H. chain. Qed.
Lemma reach_copy_iter k : forall i r d m d' m', copy_iter esz k i r d m = Ok (d', m') -> reach m m'.
Proof. induction k as [|k IH]; intros i r d m d' m' H; cbn [copy_iter] in H; inv_ok; [constructor|]. apply IH in H. apply reach_emplace_back in E0. chain. Qed.
Lemma reach_push_all l : forall d m d' m', push_all esz l d m = Ok (d', m') -> reach m m'.
Proof. induction l as [|a l IH]; intros d m d' m' H; cbn [push_all] in H; inv_ok; [constructor|]. apply IH in H. apply reach_emplace_back in E. chain. Qed.
Lemma reach_step c e m e' m' : dstep esz (e, m) c = Ok (e', m') -> reach m m'.
Proof.
  destruct c; cbn [dstep]; unfold declare, update, dmove, dswap, assign_from, dinit, dcopy, dswap; intros H;
  repeat (inv_ok; match goal with K : (match ?t with Some _ => UB | None => _ end = Ok _) |- _ => destruct t; [discriminate K|] end);
  inv_ok; repeat match goal with
  | H : push_all _ _ _ _ = Ok _ |- _ => apply reach_push_all in H
  | H : copy_iter _ _ _ _ _ _ = Ok _ |- _ => apply reach_copy_iter in H
  | H : ddestroy _ _ = Ok _ |- _ => apply reach_destroy in H
  | H : dclear _ _ = Ok _ |- _ => apply reach_clear in H
  | H : emplace_back _ _ _ _ = Ok _ |- _ => apply reach_emplace_back in H
  | H : emplace_front _ _ _ _ = Ok _ |- _ => apply reach_emplace_front in H
  | H : pop_front _ _ = Ok _ |- _ => apply reach_pop_front in H
  | H : pop_back _ _ = Ok _ |- _ => apply reach_pop_back in H
  end; chain.
Qed.
Lemma reach_run cs : forall e m e' m', drun esz (e, m) cs = Ok (e', m') -> reach m m'.
Proof.
  induction cs as [|c cs IH]; intros e m e' m' H; cbn [drun] in H; inv_ok; [constructor|].
  destruct r as [e1 m1]. apply reach_step in E. apply IH in H. chain.
Qed.
Lemma run_coh cs e m : drun esz (∅, mem0) cs = Ok (e, m) -> coh m.
Proof. intros H. eapply coh_reach; [eapply reach_run; exact H|apply coh0]. Qed.

(** ** Histories *)
(** State after a history that respects the preconditions; a block has less than 2^63 bytes. *)
Definition reached (cs : list (dcmd A)) s e m : Prop :=
  16 * esz < 2 ^ 63 /\ srun ∅ cs = Some s /\ drun esz (∅, mem0) cs = Ok (e, m).
Lemma reached_inv cs s e m : reached cs s e m -> exists w, inv w s e m.
Proof.
  intros (He & Hs & Hr). destruct (run_ok esz He cs _ _ _ _ _ inv0 Hs) as (w & e' & m' & E & H).
  rewrite Hr in E. injection E as <- <-. eauto.
Qed.
Lemma reached_rep cs s e m x q d : reached cs s e m -> s !! x = Some q -> e !! x = Some d ->
  exists o, drep d q o m /\ fresh m.
Proof.
  intros H Hx Hd. destruct (reached_inv _ _ _ _ H) as (w & Hf & _ & _ & Hr & _). eauto.
Qed.

Definition same ls s : Prop := forall x, ls !! x = elems <$> s !! x.
Lemma same_put ls s x q : same ls s -> same (<[x := elems q]> ls) (<[x := q]> s).
Proof.
  intros H y. destruct (decide (y = x)) as [->|Hne]; [rewrite !lookup_insert; reflexivity|rewrite !lookup_insert_ne by congruence; apply H].
Qed.
Lemma same_del ls s x : same ls s -> same (delete x ls) (delete x s).
Proof.
  intros H y. destruct (decide (y = x)) as [->|Hne]; [rewrite !lookup_delete; reflexivity|rewrite !lookup_delete_ne by congruence; apply H].
Qed.
Lemma same_some ls s x q : same ls s -> s !! x = Some q -> ls !! x = Some (elems q).
Proof. intros H E. rewrite H, E. reflexivity. Qed.
Lemma same_on ls s x f g s' : same ls s -> on s x f = Some s' -> (forall q q', f q = Some q' -> g (elems q) = Some (elems q')) ->
  exists ls', qon ls x g = Some ls' /\ same ls' s'.
Proof.
  intros H Hs Hfg. apply on_Some in Hs as (q & q' & Hx & E & ->). unfold qon. rewrite (same_some _ _ _ _ H Hx), (Hfg _ _ E).
  eexists. split; [reflexivity|]. apply same_put, H.
Qed.
Lemma same_new ls s x q s' : same ls s -> new s x q = Some s' -> exists ls', qnew ls x (elems q) = Some ls' /\ same ls' s'.
Proof.
  intros H Hs. apply new_Some in Hs as [Hx ->]. unfold qnew. rewrite H, Hx. eexists. split; [reflexivity|]. apply same_put, H.
Qed.
Lemma push_back_elems a q q' : spush_back a q = Some q' -> elems q' = elems q ++ [a].
Proof.
  unfold spush_back. destruct (Nat.eqb _ _); [intros [= <-]; reflexivity|]. destruct (Nat.ltb _ _); [intros [= <-]; reflexivity|].
  destruct (Z.ltb _ _); [intros [= <-]; reflexivity|discriminate].
Qed.
Lemma push_front_elems a q q' : spush_front a q = Some q' -> elems q' = a :: elems q.
Proof.
  unfold spush_front. destruct (Nat.ltb _ _); [intros [= <-]; reflexivity|].
  destruct (room q) as [|[|n]]; [intros [= <-]; reflexivity|intros [= <-]; reflexivity|discriminate].
Qed.
Lemma push_all_elems l : forall q q', spush_all l q = Some q' -> elems q' = elems q ++ l.
Proof.
  induction l as [|a l IH]; intros q q' H; cbn [spush_all] in H; [injection H as <-; rewrite app_nil_r; reflexivity|].
  destruct (spush_back a q) as [q1|] eqn:E; [|discriminate]. rewrite (IH _ _ H), (push_back_elems _ _ _ E), <- app_assoc. reflexivity.
Qed.
Lemma scopy_elems q q' : scopy q = Some q' -> elems q' = elems q /\ elems q <> [].
Proof.
  unfold scopy. destruct (elems q) as [|a l]; [discriminate|]. intros H. apply push_all_elems in H. split; [exact H|discriminate].
Qed.
Lemma full_some (l : list A) : l <> [] -> full (Some l) = Some l.
Proof. destruct l; [contradiction|reflexivity]. Qed.
Lemma sclear_elems q : elems (sclear q) = [].
Proof. unfold sclear. destruct (elems q) eqn:E; [exact E|reflexivity]. Qed.
Lemma same_step ls s c s' : same ls s -> sstep s c = Some s' -> exists ls', lstep ls c = Some ls' /\ same ls' s'.
Proof.
  intros H Hs. destruct c as [x|x l|x y|x y|x|x a|x a|x i|x i|x|x|x|x y|x y|x y]; cbn [sstep lstep] in *.
  - exact (same_new _ _ _ _ _ H Hs).
  - destruct (spush_all l sq0) as [q|] eqn:E; [|discriminate]. apply push_all_elems in E. cbn in E. rewrite <- E. exact (same_new _ _ _ _ _ H Hs).
  - destruct (s !! y) as [q|] eqn:Ey; [|discriminate]. destruct (scopy q) as [q'|] eqn:E; [|discriminate].
    apply scopy_elems in E as [E1 E2]. rewrite (same_some _ _ _ _ H Ey), (full_some _ E2), <- E1. exact (same_new _ _ _ _ _ H Hs).
  - destruct (s !! y) as [q|] eqn:Ey; [|discriminate]. rewrite (same_some _ _ _ _ H Ey).
    exact (same_new _ _ _ _ _ (same_put _ _ y sq0 H) Hs).
  - destruct (s !! x) as [q|] eqn:Ex; [|discriminate]. injection Hs as <-. rewrite (same_some _ _ _ _ H Ex).
    eexists. split; [reflexivity|]. apply same_del, H.
  - eapply same_on; [exact H|exact Hs|]. intros q q' E. apply push_back_elems in E. congruence.
  - eapply same_on; [exact H|exact Hs|]. intros q q' E. apply push_front_elems in E. congruence.
  - eapply same_on; [exact H|exact Hs|]. intros q q' E. cbn beta in *. unfold nth in E. destruct (Z.leb 0 i); [|discriminate].
    destruct (elems q !! Z.to_nat i); [|discriminate]. apply push_back_elems in E. congruence.
  - eapply same_on; [exact H|exact Hs|]. intros q q' E. cbn beta in *. unfold nth in E. destruct (Z.leb 0 i); [|discriminate].
    destruct (elems q !! Z.to_nat i); [|discriminate]. apply push_front_elems in E. congruence.
  - eapply same_on; [exact H|exact Hs|]. intros q q' E. unfold spop_back in E. unfold len in E.
    destruct (elems q) eqn:El; [discriminate|]. injection E as <-. reflexivity.
  - eapply same_on; [exact H|exact Hs|]. intros q q' E. unfold spop_front in E.
    destruct (elems q) eqn:El; [discriminate|]. injection E as <-. reflexivity.
  - eapply same_on; [exact H|exact Hs|]. intros q q' E. injection E as <-. rewrite sclear_elems. reflexivity.
  - destruct (s !! y) as [q|] eqn:Ey; [|discriminate]. destruct (scopy q) as [q'|] eqn:E; [|discriminate].
    apply scopy_elems in E as [E1 E2]. rewrite (same_some _ _ _ _ H Ey), (full_some _ E2), <- E1.
    eapply same_on; [exact H|exact Hs|]. intros p p' [= <-]. reflexivity.
  - destruct (s !! y) as [q|] eqn:Ey; [|discriminate]. rewrite (same_some _ _ _ _ H Ey).
    eapply same_on; [exact (same_put _ _ y sq0 H)|exact Hs|]. intros p p' [= <-]. reflexivity.
  - destruct (s !! x) as [p|] eqn:Ex; [|discriminate]. destruct (s !! y) as [q|] eqn:Ey; [|discriminate]. injection Hs as <-.
    rewrite (same_some _ _ _ _ H Ex), (same_some _ _ _ _ H Ey). eexists. split; [reflexivity|]. apply same_put, same_put, H.
Qed.
Lemma same_run cs : forall ls s s', same ls s -> srun s cs = Some s' -> exists ls', lrun ls cs = Some ls' /\ same ls' s'.
Proof.
  induction cs as [|c cs IH]; intros ls s s' H Hs; cbn [srun lrun] in *; [injection Hs as <-; eauto|].
  destruct (sstep s c) as [s1|] eqn:E; [|discriminate]. destruct (same_step _ _ _ _ H E) as (ls1 & -> & H1). eauto.
Qed.
Lemma history cs s : 16 * esz < 2 ^ 63 -> srun ∅ cs = Some s ->
  exists e m, drun esz (∅, mem0) cs = Ok (e, m) /\ lrun ∅ cs = Some (elems <$> s) /\ (forall x, s !! x = None <-> e !! x = None) /\
  forall x q d, s !! x = Some q -> e !! x = Some d -> shows d m (elems q).
Proof.
  intros He Hs. destruct (run_ok esz He cs _ _ _ _ _ inv0 Hs) as (w & e & m & E & Hinv).
  exists e, m. split; [exact E|]. pose proof Hinv as (_ & Hd & _ & Hr & _). split; [|split; [exact Hd|]].
  - destruct (same_run cs ∅ ∅ s) as (ls & -> & H).
    + intros x. rewrite !lookup_empty. reflexivity.
    + exact Hs.
    + f_equal. apply map_eq. intros x. rewrite lookup_fmap. apply H.
  - intros x q d Hx Hv. eapply shows_ok; eauto.
Qed.

(** Without additions at the front the place in storage does not matter. *)
Lemma back_step N ls s c ls' : rel N ls s -> Z.of_nat N + Z.of_nat (adds c) < 2 ^ 31 - 1 -> fronts c = false -> lstep ls c = Some ls' ->
  exists s', sstep s c = Some s' /\ rel (N + adds c) ls' s'.
Proof.
  intros Hrel HN Hfr H. destruct (common _ _ _ Hrel ltac:(lia)) as (C1 & C2 & C3 & C4 & C5 & C6 & C7).
  destruct c as [x|x l|x y|x y|x|x a|x a|x i|x i|x|x|x|x y|x y|x y]; cbn [fronts adds lstep] in *; try discriminate Hfr;
    rewrite ?Nat.add_0_r, ?Nat.add_1_r; auto; cbn [sstep].
  - apply qnew_Some in H as [Hx ->]. destruct (spush_all_some l sq0) as (q & E1 & E2 & E3); [cbn [room sq0]; lia|]. cbn [elems sq0 app room] in *.
    rewrite E1, (new_eq _ _ _ (rel_none _ _ _ _ Hrel Hx)). eexists. split; [reflexivity|]. subst l.
    apply rel_put; [eapply rel_mono; [|exact Hrel]; lia|unfold len; lia|lia].
  - apply qon_Some in H as (l & l' & Hx & E & ->). destruct (Z.leb 0 i) eqn:Ei; [|discriminate].
    destruct (rel_some _ _ _ _ _ Hrel Hx) as (q & Hq & <- & H1 & H2). destruct (elems q !! Z.to_nat i) as [a|] eqn:Ea; [|discriminate]. injection E as <-.
    destruct (spush_back_some a q) as (q' & E & E1 & E2); [lia|].
    erewrite on_eq; [|exact Hq|unfold nth; rewrite Ei, Ea; exact E]. eexists. split; [reflexivity|]. rewrite <- E1.
    apply rel_put; [eapply rel_mono; [|exact Hrel]; lia| |lia]. unfold len in *. rewrite E1, app_length. cbn [length]. lia.
  - destruct (kspec_step N ls s (KPop x) ls' Hrel ltac:(lia) H) as (s1 & E & H1). rewrite Nat.add_0_r in H1. eauto.
  - destruct (qspec_step N ls s (QPop x) ls' Hrel ltac:(lia) H) as (s1 & E & H1). rewrite Nat.add_0_r in H1. eauto.
  - apply qon_Some in H as (l & l' & Hx & [= <-] & ->).
    destruct (rel_some _ _ _ _ _ Hrel Hx) as (q & Hq & El & H1 & H2). erewrite on_eq; [|exact Hq|reflexivity]. eexists. split; [reflexivity|].
    rewrite <- (sclear_elems q). apply rel_put; [exact Hrel|unfold len; rewrite sclear_elems; cbn; lia|].
    unfold sclear. destruct (elems q); exact H2.
  - destruct (ls !! y) as [l|] eqn:Hy; [|discriminate]. apply qon_Some in H as (k & l' & Hx & [= <-] & ->).
    destruct (rel_some _ _ _ _ _ Hrel Hy) as (q & -> & <- & H1 & H2).
    assert (Hrel1 : rel N (<[y := []]> ls) (<[y := sq0]> s)) by (change (@nil A) with (elems (@sq0 A)); apply rel_put; [exact Hrel|cbn; lia|cbn; lia]).
    destruct (rel_some _ _ _ _ _ Hrel1 Hx) as (p & Hp & _). erewrite on_eq; [|exact Hp|reflexivity]. eexists. split; [reflexivity|].
    apply rel_put; assumption.
Qed.
Lemma back_run cs : forall N ls s ls', rel N ls s -> Z.of_nat N + Z.of_nat (list_sum (map adds cs)) < 2 ^ 31 - 1 -> forallb (fun c => negb (fronts c)) cs = true ->
  lrun ls cs = Some ls' -> exists s', srun s cs = Some s' /\ rel (N + list_sum (map adds cs)) ls' s'.
Proof.
  induction cs as [|c cs IH]; intros N ls s ls' Hrel HN Hfr H; cbn [lrun srun map forallb] in *.
  - injection H as <-. exists s. split; [reflexivity|]. cbn. rewrite Nat.add_0_r. exact Hrel.
  - apply andb_true_iff in Hfr as [Hf1 Hf2]. destruct (lstep ls c) as [ls1|] eqn:E; [|discriminate].
    change (list_sum (adds c :: map adds cs)) with (adds c + list_sum (map adds cs))%nat in *.
    destruct (back_step N ls s c ls1 Hrel) as (s1 & -> & Hrel1); [lia|destruct (fronts c); [discriminate|reflexivity]|exact E|].
    destruct (IH _ _ _ ls' Hrel1) as (s' & E' & H'); [lia|exact Hf2|exact H|].
    exists s'. split; [exact E'|]. rewrite Nat.add_assoc. exact H'.
Qed.
Lemma shown ls s N e m w : rel N ls s -> inv w s e m -> (forall x, ls !! x = None <-> e !! x = None) /\
  forall x l d, ls !! x = Some l -> e !! x = Some d -> shows d m l.
Proof.
  intros Hrel (_ & Hd & _ & Hr & _). split.
  - intros x. rewrite <- Hd. destruct Hrel as [H _]. rewrite H. destruct (s !! x); split; intros; try discriminate; reflexivity.
  - intros x l d Hx He. destruct (rel_some _ _ _ _ _ Hrel Hx) as (q & Hq & <- & _). eapply shows_ok; eauto.
Qed.
Lemma back_history cs ls : 16 * esz < 2 ^ 63 -> lrun ∅ cs = Some ls -> forallb (fun c => negb (fronts c)) cs = true ->
  Z.of_nat (list_sum (map adds cs)) < 2 ^ 31 - 1 ->
  exists e m, drun esz (∅, mem0) cs = Ok (e, m) /\ (forall x, ls !! x = None <-> e !! x = None) /\
  forall x l d, ls !! x = Some l -> e !! x = Some d -> shows d m l.
Proof.
  intros He Hl Hfr HN. destruct (back_run cs 0 _ _ _ rel0 HN Hfr Hl) as (s & Hs & Hrel).
  destruct (run_ok esz He cs _ _ _ _ _ inv0 Hs) as (w & e & m & E & Hinv). exists e, m. split; [exact E|]. eapply shown; eassumption.
Qed.
Lemma queue_history cs ls : 16 * esz < 2 ^ 63 -> qspecs ∅ cs = Some ls -> Z.of_nat (qpushes cs) < 2 ^ 31 - 1 ->
  exists e m, qrun esz (∅, mem0) cs = Ok (e, m) /\ (forall x, ls !! x = None <-> e !! x = None) /\
  forall x l d, ls !! x = Some l -> e !! x = Some d -> shows d m l.
Proof.
  intros He Hl HN. destruct (qspecs_run cs 0 _ _ _ rel0 HN Hl) as (s & Hs & Hrel).
  destruct (run_ok esz He _ _ _ _ _ _ inv0 Hs) as (w & e & m & E & Hinv). exists e, m. rewrite qrun_eq. split; [exact E|]. eapply shown; eassumption.
Qed.
(** ** Where it goes wrong *)
Lemma front_bad cs s e m x d a : reached cs s e m -> e !! x = Some d -> dfirst d = 0 -> 2 <= dbs d -> emplace_front esz a d m = UB.
Proof.
  intros H Hd H0 H2. destruct (reached_inv _ _ _ _ H) as (w & Hf & Hdom & _ & Hr & _). destruct H as (He & _).
  destruct (s !! x) as [q|] eqn:Hx; [|apply Hdom in Hx; congruence]. pose proof (Hr _ _ _ Hx Hd) as Hrep.
  pose proof Hrep as (R1 & _ & R3 & _). eapply emplace_front_bad; [exact He|exact Hrep|exact Hf|lia|lia].
Qed.
Lemma index_exact cs s e m x q d : reached cs s e m -> s !! x = Some q -> e !! x = Some d ->
  (forall i a, elems q !! i = Some a -> dget (dfirst d + Z.of_nat i) d m = Ok (value a)) /\
  (forall i, 0 <= i < 2 ^ 64 -> i < dfirst d \/ dfirst d + Z.of_nat (length (elems q)) <= i -> dget i d m = UB).
Proof.
  intros H Hx Hd. destruct (reached_rep _ _ _ _ _ _ _ H Hx Hd) as (o & Hrep & _). pose proof Hrep as (_ & _ & R3 & _). rewrite R3. split.
  - intros i a Hi. assert (Hlt : (i < len q)%nat) by (eapply lookup_lt_Some; exact Hi).
    destruct (dget_ok _ _ _ _ _ Hrep Hlt) as (b & p & Hb & Ep & El & _). unfold dget.
    replace (Z.of_nat (head q) + Z.of_nat i) with (Z.of_nat (head q + i)) by lia. rewrite Ep. cbn [obind]. rewrite El. congruence.
  - intros i Hi Ho. eapply dget_out; [exact Hrep|exact Hi|]. unfold len in *. lia.
Qed.
Lemma empty_bad cs s e m x q d : reached cs s e m -> s !! x = Some q -> elems q = [] -> e !! x = Some d ->
  dbegin d <> dend d /\ diter d m = UB /\ dcopy esz d m = UB.
Proof.
  intros H Hx Hq Hd. destruct (reached_rep _ _ _ _ _ _ _ H Hx Hd) as (o & Hrep & Hf).
  destruct (dcopy_empty_iter _ _ _ _ Hrep Hq) as [H1 H2]. split; [exact H1|]. split; [exact H2|].
  destruct H as (He & _). exact (dcopy_empty esz He _ _ _ _ Hrep Hf Hq).
Qed.
(** As long as nothing was removed and nothing added at the front, storage starts with the first
    element. *)
Lemma push_back_head a q q' : head q = 0%nat -> spush_back a q = Some q' -> head q' = 0%nat.
Proof.
  intros H0. unfold spush_back. destruct (Nat.eqb _ _); [intros [= <-]; reflexivity|]. destruct (Nat.ltb _ _); [intros [= <-]; exact H0|].
  destruct (Z.ltb _ _); [intros [= <-]; exact H0|discriminate].
Qed.
Lemma push_all_head l : forall q q', head q = 0%nat -> spush_all l q = Some q' -> head q' = 0%nat.
Proof.
  induction l as [|a l IH]; intros q q' H0 H; cbn [spush_all] in H; [congruence|].
  destruct (spush_back a q) as [q1|] eqn:E; [|discriminate]. eapply IH; [|exact H]. eapply push_back_head; eassumption.
Qed.
Lemma scopy_head q q' : scopy q = Some q' -> head q' = 0%nat.
Proof. unfold scopy. destruct (elems q); [discriminate|]. apply push_all_head. reflexivity. Qed.
Definition heads0 s : Prop := forall x q, s !! x = Some q -> head q = 0%nat.
Lemma heads_put s x q : heads0 s -> head q = 0%nat -> heads0 (<[x := q]> s).
Proof.
  intros H H0 y p. destruct (decide (y = x)) as [->|Hne]; [rewrite lookup_insert; congruence|]. rewrite lookup_insert_ne by congruence. apply H.
Qed.
Lemma heads_step s c s' : heads0 s -> fronts c = false -> takes c = false -> sstep s c = Some s' -> heads0 s'.
Proof.
  intros H Hf Ht Hs. destruct c as [x|x l|x y|x y|x|x a|x a|x i|x i|x|x|x|x y|x y|x y]; cbn [fronts takes sstep] in *; try discriminate.
  - apply new_Some in Hs as [_ ->]. apply heads_put; [exact H|reflexivity].
  - destruct (spush_all l sq0) as [q|] eqn:E; [|discriminate]. apply new_Some in Hs as [_ ->]. apply heads_put; [exact H|].
    eapply push_all_head; [|exact E]. reflexivity.
  - destruct (s !! y) as [q|]; [|discriminate]. destruct (scopy q) as [q'|] eqn:E; [|discriminate]. apply new_Some in Hs as [_ ->].
    apply heads_put; [exact H|]. eapply scopy_head, E.
  - destruct (s !! y) as [q|] eqn:Ey; [|discriminate]. apply new_Some in Hs as [_ ->]. apply heads_put; [apply heads_put; [exact H|reflexivity]|].
    eapply H, Ey.
  - destruct (s !! x); [|discriminate]. injection Hs as <-. intros y q Hy. apply lookup_delete_Some in Hy as [_ Hy]. eapply H, Hy.
  - apply on_Some in Hs as (q & q' & Hx & E & ->). apply heads_put; [exact H|]. eapply push_back_head; [|exact E]. eapply H, Hx.
  - apply on_Some in Hs as (q & q' & Hx & E & ->). destruct (nth q i); [|discriminate]. apply heads_put; [exact H|]. eapply push_back_head; [|exact E]. eapply H, Hx.
  - destruct (s !! y) as [q|]; [|discriminate]. destruct (scopy q) as [q'|] eqn:E; [|discriminate].
    apply on_Some in Hs as (p & p' & Hx & [= <-] & ->). apply heads_put; [exact H|]. eapply scopy_head, E.
  - destruct (s !! y) as [q|] eqn:Ey; [|discriminate]. apply on_Some in Hs as (p & p' & Hx & [= <-] & ->).
    apply heads_put; [apply heads_put; [exact H|reflexivity]|]. eapply H, Ey.
  - destruct (s !! x) as [p|] eqn:Ex; [|discriminate]. destruct (s !! y) as [q|] eqn:Ey; [|discriminate]. injection Hs as <-.
    apply heads_put; [apply heads_put; [exact H|]|]; eapply H; eassumption.
Qed.
Lemma heads_run cs : forall s s', heads0 s -> forallb (fun c => negb (fronts c) && negb (takes c)) cs = true -> srun s cs = Some s' -> heads0 s'.
Proof.
  induction cs as [|c cs IH]; intros s s' H Hc Hs; cbn [srun forallb] in *; [injection Hs as <-; exact H|].
  destruct (sstep s c) as [s1|] eqn:E; [|discriminate]. apply andb_true_iff in Hc as [Hc1 Hc2].
  apply andb_true_iff in Hc1 as [X Y]. eapply IH; [|exact Hc2|exact Hs].
  apply (heads_step s c); [exact H|destruct (fronts c); [discriminate|reflexivity]|destruct (takes c); [discriminate|reflexivity]|exact E].
Qed.
Lemma index_grown cs ls : 16 * esz < 2 ^ 63 -> lrun ∅ cs = Some ls -> forallb (fun c => negb (fronts c) && negb (takes c)) cs = true ->
  Z.of_nat (list_sum (map adds cs)) < 2 ^ 31 - 1 ->
  exists e m, drun esz (∅, mem0) cs = Ok (e, m) /\
  forall x l d i a, ls !! x = Some l -> e !! x = Some d -> l !! i = Some a -> dget (Z.of_nat i) d m = Ok (value a).
Proof.
  intros He Hl Hc HN. assert (Hfr : forallb (fun c : dcmd A => negb (fronts c)) cs = true).
  { clear - Hc. induction cs as [|c cs IH]; [reflexivity|]. cbn [forallb] in *. apply andb_true_iff in Hc as [H1 H2].
    apply andb_true_iff in H1 as [H1 _]. rewrite H1, (IH H2). reflexivity. }
  destruct (back_run cs 0 _ _ _ rel0 HN Hfr Hl) as (s & Hs & Hrel).
  destruct (run_ok esz He cs _ _ _ _ _ inv0 Hs) as (w & e & m & E & Hinv). exists e, m. split; [exact E|].
  intros x l d i a Hx Hd Hi. destruct (rel_some _ _ _ _ _ Hrel Hx) as (q & Hq & <- & _).
  destruct (index_exact cs s e m x q d) as [H1 _]; [split; [exact He|split; [exact Hs|exact E]]|exact Hq|exact Hd|].
  pose proof (heads_run cs ∅ s) as Hh. destruct Hinv as (_ & _ & _ & Hr & _). destruct (Hr _ _ _ Hq Hd) as (_ & _ & R3 & _).
  specialize (H1 _ _ Hi). rewrite R3, (Hh ltac:(intros y p Hy; rewrite lookup_empty in Hy; discriminate) Hc Hs _ _ Hq) in H1.
  exact H1.
Qed.

(** ** Own elements as arguments *)
Lemma push_own_back cs s e m x q d i a : reached cs s e m -> s !! x = Some q -> e !! x = Some d -> elems q !! i = Some a -> Z.of_nat (room q) + 1 < 2 ^ 31 ->
  exists p d' m', obj_ptr d (dbegin d + Z.of_nat i) m = Ok p /\ emplace_back esz (ARef p) d m = Ok (d', m') /\ shows d' m' (elems q ++ [a]).
Proof.
  intros H Hx Hd Hi Hr. destruct (reached_rep _ _ _ _ _ _ _ H Hx Hd) as (o & Hrep & Hf). destruct H as (He & _).
  assert (Hn : nth q (Z.of_nat i) = Some a) by (unfold nth; replace (Z.leb 0 (Z.of_nat i)) with true by lia; rewrite Nat2Z.id; exact Hi).
  destruct (gives_elem _ _ _ _ _ _ Hrep Hf Hn) as (p & Ep & Hg). destruct (spush_back_some a q Hr) as (q' & Eq & Ee & _).
  destruct (emplace_back_ok esz He _ _ _ _ _ _ _ Hrep Hf Hg Eq) as (d' & o' & m' & E & Hrep' & _).
  exists p, d', m'. split; [exact Ep|]. split; [exact E|]. rewrite <- Ee. eapply shows_ok, Hrep'.
Qed.
Lemma push_own_front cs s e m x q d i a : reached cs s e m -> s !! x = Some q -> e !! x = Some d -> elems q !! i = Some a -> 0 < dfirst d \/ dbs d <= 1 ->
  exists p d' m', obj_ptr d (dbegin d + Z.of_nat i) m = Ok p /\ emplace_front esz (ARef p) d m = Ok (d', m') /\ shows d' m' (a :: elems q).
Proof.
  intros H Hx Hd Hi Hr. destruct (reached_rep _ _ _ _ _ _ _ H Hx Hd) as (o & Hrep & Hf). destruct H as (He & _).
  assert (Hn : nth q (Z.of_nat i) = Some a) by (unfold nth; replace (Z.leb 0 (Z.of_nat i)) with true by lia; rewrite Nat2Z.id; exact Hi).
  destruct (gives_elem _ _ _ _ _ _ Hrep Hf Hn) as (p & Ep & Hg).
  assert (Eq : exists q', spush_front a q = Some q').
  { pose proof Hrep as (R1 & _ & R3 & _). unfold spush_front. destruct (Nat.ltb_spec 0 (head q)) as [X|X]; [eauto|].
    destruct (room q) as [|[|r]]; [eauto|eauto|lia]. }
  destruct Eq as (q' & Eq). pose proof (push_front_elems _ _ _ Eq) as Ee.
  destruct (emplace_front_ok esz He _ _ _ _ _ _ _ Hrep Hf Hg Eq) as (d' & o' & m' & E & Hrep' & _).
  exists p, d', m'. split; [exact Ep|]. split; [exact E|]. rewrite <- Ee. eapply shows_ok, Hrep'.
Qed.

(** ** Lifetimes *)
Lemma lifetimes cs e m : drun esz (∅, mem0) cs = Ok (e, m) -> legal_trace (trace m).
Proof. intros H. apply coh_legal. eapply run_coh; exact H. Qed.
Lemma all_gone cs e m : reached cs ∅ e m -> objects_gone (trace m) /\ nonempty_buffers_gone (trace m).
Proof.
  intros H. destruct (reached_inv _ _ _ _ H) as (w & _ & Hd & Hn & _ & _ & Hcov). destruct H as (_ & _ & H).
  apply coh_gone_nonempty; [eapply run_coh; exact H|]. intros b cs' Hb. destruct (Hcov _ _ Hb) as [X|(x & Hx)]; [exact X|].
  assert (E : e !! x = None) by (apply Hd, lookup_empty). rewrite (Hn _ E) in Hx. destruct Hx.
Qed.
End facts.
