(** Deques and queues without a bound on the number of commands. *)
From stdpp Require Import gmap list.
From Coq Require Import ZArith Lia ZifyBool ZifyNat.
From Verif Require Import Base ObjModel ObjSpec ObjProofs DequeModel DequeSpec DequeProofs DequeOps DequeRun DequeFacts DequeStorage DequeExact DequeLongSpec.
Local Open Scope Z_scope.
Local Open Scope outcome_scope.
Ltac Zify.zify_post_hook ::= Z.div_mod_to_equations.

Section long.
Context {A : Type} (esz : Z) (Hblock : 16 * esz < 2 ^ 63).
Notation val := (A + nat)%type.
Notation mem := (mem val).
Notation store := (gmap nat (sq A)).
Notation env := (gmap nat deq).
Implicit Types (m : mem) (s : store) (e : env) (q : sq A) (d : deq) (ls : gmap nat (list A)) (ks : gmap nat nat).

(** ** Deques *)
Lemma long_UB cs : forall w s e m, inv w s e m ->
  (forall n s' c, srun s (take n cs) = Some s' -> cs !! n = Some c -> Z.of_nat (adds c) + 2 < 2 ^ 31 /\
    forall x q, s' !! x = Some q -> Z.of_nat (len q + adds c) + 2 < 2 ^ 31 /\ Z.of_nat (room q + adds c) + 2 < 2 ^ 31) ->
  srun s cs = None -> drun esz (e, m) cs = UB.
Proof.
  induction cs as [|c cs IH]; intros w s e m Hinv HN Hs; cbn [srun drun] in *; [discriminate|].
  destruct (sstep s c) as [s1|] eqn:E1.
  - destruct (step_ok esz Hblock _ _ _ _ _ _ Hinv E1) as (w1 & e1 & m1 & -> & Hinv1). cbn [obind].
    eapply IH; [exact Hinv1| |exact Hs]. intros n s' c' Hs' Hc'. apply (HN (S n) s' c'); [|exact Hc'].
    cbn [take srun]. rewrite E1. exact Hs'.
  - destruct (HN 0%nat s c eq_refl eq_refl) as [H1 H2].
    assert (H3 : (more c <= adds c + 1)%nat) by (unfold more; destruct (fronts c); lia).
    rewrite (step_UB esz Hblock w s e m c (Z.to_nat (2 ^ 31 - 3) - adds c)%nat); [reflexivity|exact Hinv| |lia|exact E1].
    intros x q Hx. specialize (H2 _ _ Hx). lia.
Qed.
Lemma deque_long cs : within cs ->
  match srun ∅ cs with
  | Some s => exists e m, drun esz (∅, mem0) cs = Ok (e, m) /\ (forall x, s !! x = None <-> e !! x = None) /\
      forall x q d, s !! x = Some q -> e !! x = Some d -> shows d m (elems q)
  | None => drun esz (∅, mem0) cs = UB
  end.
Proof.
  intros Hw. destruct (srun ∅ cs) as [s|] eqn:Hs.
  - destruct (history esz cs s Hblock Hs) as (e & m & H1 & _ & H2 & H3). eauto.
  - eapply long_UB; [exact inv0|exact Hw|exact Hs].
Qed.

(** Without additions at the front the sequences are the whole story. *)
Lemma back_run_long cs : forall N ls s ls', rel N ls s ->
  (forall n s' c, srun s (take n cs) = Some s' -> cs !! n = Some c -> Z.of_nat (adds c) + 2 < 2 ^ 31 /\
    forall x q, s' !! x = Some q -> Z.of_nat (len q + adds c) + 2 < 2 ^ 31 /\ Z.of_nat (room q + adds c) + 2 < 2 ^ 31) ->
  forallb (fun c => negb (fronts c)) cs = true ->
  lrun ls cs = Some ls' -> exists s' N', srun s cs = Some s' /\ rel N' ls' s'.
Proof.
  induction cs as [|c cs IH]; intros N ls s ls' Hrel HN Hfr H; cbn [lrun srun forallb] in *.
  - injection H as <-. exists s, N. split; [reflexivity|exact Hrel].
  - apply andb_true_iff in Hfr as [Hf1 Hf2]. destruct (lstep ls c) as [ls1|] eqn:E; [|discriminate].
    destruct (HN 0%nat s c eq_refl eq_refl) as [H1 H2].
    assert (R : rel (Z.to_nat (2 ^ 31 - 3) - adds c)%nat ls s) by (destruct Hrel as [R1 _]; split; [exact R1|]; intros x q Hx; specialize (H2 _ _ Hx); lia).
    destruct (back_step _ ls s c ls1 R) as (s1 & E1 & Hrel1); [lia|destruct (fronts c); [discriminate|reflexivity]|exact E|].
    destruct (IH _ _ s1 ls' Hrel1) as (s' & N' & E' & H'); [|exact Hf2|exact H|].
    + intros n s' c' Hs' Hc'. apply (HN (S n) s' c'); [|exact Hc']. cbn [take srun]. rewrite E1. exact Hs'.
    + exists s', N'. rewrite E1. split; [exact E'|exact H'].
Qed.
Lemma back_long cs : forallb (fun c => negb (fronts c)) cs = true -> within cs ->
  match lrun ∅ cs with
  | Some ls => exists e m, drun esz (∅, mem0) cs = Ok (e, m) /\ (forall x, ls !! x = None <-> e !! x = None) /\
      forall x l d, ls !! x = Some l -> e !! x = Some d -> shows d m l
  | None => drun esz (∅, mem0) cs = UB
  end.
Proof.
  intros Hfr Hw. destruct (lrun ∅ cs) as [ls|] eqn:Hl.
  - destruct (back_run_long cs 0 _ _ _ rel0 Hw Hfr Hl) as (s & N & Hs & Hrel).
    destruct (run_ok esz Hblock cs _ _ _ _ _ inv0 Hs) as (w & e & m & E & Hinv). exists e, m. split; [exact E|]. eapply shown; eassumption.
  - assert (Hs : srun ∅ cs = None).
    { destruct (srun ∅ cs) as [s|] eqn:E; [|reflexivity]. destruct (same_run cs ∅ ∅ s) as (ls & E1 & _); [|exact E|congruence].
      intros x. rewrite !lookup_empty. reflexivity. }
    pose proof (deque_long cs Hw) as H. rewrite Hs in H. exact H.
Qed.

(** ** Queues *)
Definition qrel (P : nat) ks ls s : Prop :=
  same ls s /\ forall x q, s !! x = Some q -> exists k, ks !! x = Some k /\ qstate (len q) k P q.
Lemma qrel_put P ks ls s x q k : qrel P ks ls s -> qstate (len q) k P q -> qrel P (<[x := k]> ks) (<[x := elems q]> ls) (<[x := q]> s).
Proof.
  intros [H1 H2] Hq. split; [apply same_put, H1|]. intros y p.
  destruct (decide (y = x)) as [->|Hne]; [rewrite !lookup_insert; intros [= <-]; eauto|rewrite !lookup_insert_ne by congruence; apply H2].
Qed.
Lemma qrel_some P ks ls s x l : qrel P ks ls s -> ls !! x = Some l ->
  exists q k, s !! x = Some q /\ elems q = l /\ ks !! x = Some k /\ qstate (len q) k P q.
Proof.
  intros [H1 H2] Hx. rewrite H1 in Hx. destruct (s !! x) as [q|] eqn:E; [|discriminate]. injection Hx as <-.
  destruct (H2 _ _ E) as (k & K1 & K2). exists q, k. auto.
Qed.
Lemma qrel_none P ks ls s x : qrel P ks ls s -> ls !! x = None -> s !! x = None.
Proof. intros [H1 _] Hx. rewrite H1 in Hx. destruct (s !! x); [discriminate|reflexivity]. Qed.
Lemma qstate0 P : qstate 0 0 P (@sq0 A).
Proof. unfold qstate, len. cbn. split; [reflexivity|]. split; [lia|]. split; [lia|]. left. auto. Qed.
Lemma q_push_all P l : forall n k q, qstate n k P q -> (k + length l <= P)%nat -> Z.of_nat (P / 8 + 1) < 2 ^ 31 ->
  exists q', spush_all l q = Some q' /\ elems q' = elems q ++ l /\ qstate (n + length l) (k + length l) P q'.
Proof.
  induction l as [|a l IH]; intros n k q H HP HB; cbn [spush_all length] in *.
  { exists q. rewrite app_nil_r, !Nat.add_0_r. auto. }
  destruct (q_push n k P q a H) as (q1 & -> & E1 & H1); [lia|exact HB|].
  destruct (IH (S n) (S k) q1 H1) as (q2 & E2 & E3 & H2); [lia|exact HB|].
  exists q2. split; [exact E2|]. split; [rewrite E3, E1, <- app_assoc; reflexivity|].
  replace (n + S (length l))%nat with (S n + length l)%nat by lia. replace (k + S (length l))%nat with (S k + length l)%nat by lia. exact H2.
Qed.
Lemma q_copy P q : elems q <> [] -> (len q <= P)%nat -> Z.of_nat (P / 8 + 1) < 2 ^ 31 ->
  exists q', scopy q = Some q' /\ elems q' = elems q /\ qstate (len q') (len q) P q'.
Proof.
  intros Hq HN HB. unfold scopy. destruct (elems q) as [|a l] eqn:E; [contradiction|].
  destruct (q_push_all P (a :: l) 0 0 sq0 (qstate0 P)) as (q' & E1 & E2 & E3); [unfold len in HN; rewrite E in HN; lia|exact HB|].
  exists q'. split; [exact E1|]. split; [exact E2|]. unfold len. rewrite E2, E. exact E3.
Qed.
Lemma q_step P ks ls s c ls' : qrel P ks ls s -> Z.of_nat (P / 8 + 1) < 2 ^ 31 ->
  (forall x k, qsince ks ls c !! x = Some k -> (k <= P)%nat) ->
  qspec ls c = Some ls' -> exists s', sstep s (q2d c) = Some s' /\ qrel P (qsince ks ls c) ls' s'.
Proof.
  intros Hrel HB HN H. destruct c as [x|x y|x y|x|x a|x|x y|x y]; cbn [qspec q2d sstep qsince] in *.
  - apply qnew_Some in H as [Hx ->]. rewrite (new_eq _ _ _ (qrel_none _ _ _ _ _ Hrel Hx)). eexists. split; [reflexivity|].
    exact (qrel_put _ _ _ _ x sq0 0%nat Hrel (qstate0 P)).
  - destruct (full (ls !! y)) as [l|] eqn:E; [|discriminate]. apply qnew_Some in H as [Hx ->]. apply full_inv in E as [Ey Hl].
    pose proof (HN x _ (lookup_insert _ _ _)) as HN1. unfold count in *. rewrite Ey in *. cbn [fmap option_fmap option_map default] in *.
    destruct (qrel_some _ _ _ _ _ _ Hrel Ey) as (q & k & -> & <- & _ & Hq).
    destruct (q_copy P q Hl HN1 HB) as (q' & -> & E2 & Hq').
    rewrite (new_eq _ _ _ (qrel_none _ _ _ _ _ Hrel Hx)). eexists. split; [reflexivity|]. rewrite <- E2 at 2. apply qrel_put; assumption.
  - destruct (ls !! y) as [l|] eqn:Ey; [|discriminate]. apply qnew_Some in H as [Hx ->].
    destruct (qrel_some _ _ _ _ _ _ Hrel Ey) as (q & k & -> & <- & Hk & Hq).
    pose proof (qrel_put _ _ _ _ y sq0 0%nat Hrel (qstate0 P)) as Hrel1.
    rewrite (new_eq _ _ _ (qrel_none _ _ _ _ _ Hrel1 Hx)). eexists. split; [reflexivity|]. unfold since. rewrite Hk.
    apply qrel_put; assumption.
  - destruct (ls !! x) as [l|] eqn:Ex; [|discriminate]. injection H as <-. destruct (qrel_some _ _ _ _ _ _ Hrel Ex) as (q & k & -> & _).
    eexists. split; [reflexivity|]. destruct Hrel as [H1 H2]. split; [apply same_del, H1|].
    intros y p Hy. apply lookup_delete_Some in Hy as [Hne Hy]. rewrite lookup_delete_ne by exact Hne. eapply H2, Hy.
  - apply qon_Some in H as (l & l' & Hx & [= <-] & ->). destruct (qrel_some _ _ _ _ _ _ Hrel Hx) as (q & k & Hq & <- & Hk & Hs).
    pose proof (HN x _ (lookup_insert _ _ _)) as HN1. unfold since in *. rewrite Hk in *. cbn [default] in *.
    destruct (q_push _ _ P q a Hs) as (q' & E & E1 & Hs'); [exact HN1|exact HB|].
    rewrite (on_eq _ _ _ _ _ Hq E). eexists. split; [reflexivity|]. rewrite <- E1. apply qrel_put; [assumption|].
    replace (len q') with (S (len q)); [exact Hs'|]. unfold len. rewrite E1, app_length. cbn [length]. lia.
  - apply qon_Some in H as (l & l' & Hx & E & ->). destruct (qrel_some _ _ _ _ _ _ Hrel Hx) as (q & k & Hq & El & Hk & Hs).
    destruct l as [|a l]; [discriminate|]. injection E as <-.
    assert (Es : spop_front q = Some (keep l (room q) (S (head q)))) by (unfold spop_front; rewrite El; reflexivity).
    rewrite (on_eq _ _ _ _ _ Hq Es). eexists. split; [reflexivity|]. pose proof (q_pop _ _ _ _ _ Hs Es) as Hp.
    unfold count, since. rewrite Hx, Hk. cbn [fmap option_fmap option_map default].
    apply (qrel_put P ks ls s x (keep l (room q) (S (head q)))); [exact Hrel|].
    unfold len in Hp. rewrite El in Hp. cbn [length] in *. replace (S (length l) - 1)%nat with (length l) in Hp by lia. exact Hp.
  - destruct (full (ls !! y)) as [l|] eqn:E; [|discriminate]. apply qon_Some in H as (k0 & l' & Hx & [= <-] & ->). apply full_inv in E as [Ey Hl].
    pose proof (HN x _ (lookup_insert _ _ _)) as HN1. unfold count in *. rewrite Ey in *. cbn [fmap option_fmap option_map default] in *.
    destruct (qrel_some _ _ _ _ _ _ Hrel Ey) as (q & k & -> & <- & _ & Hq).
    destruct (q_copy P q Hl HN1 HB) as (q' & -> & E2 & Hq').
    destruct (qrel_some _ _ _ _ _ _ Hrel Hx) as (p & kp & Hp & _). rewrite (on_eq _ _ _ _ q' Hp eq_refl).
    eexists. split; [reflexivity|]. rewrite <- E2 at 2. apply qrel_put; assumption.
  - destruct (ls !! x) as [l|] eqn:Ex; [|discriminate]. destruct (ls !! y) as [k|] eqn:Ey; [|discriminate]. injection H as <-.
    destruct (qrel_some _ _ _ _ _ _ Hrel Ex) as (p & kp & -> & <- & Kp & Hp). destruct (qrel_some _ _ _ _ _ _ Hrel Ey) as (q & kq & -> & <- & Kq & Hq).
    eexists. split; [reflexivity|]. unfold since. rewrite Kp, Kq. cbn [default]. apply qrel_put; [apply qrel_put|]; assumption.
Qed.
Lemma q_run P cs : forall ks ls s ls', qrel P ks ls s -> Z.of_nat (P / 8 + 1) < 2 ^ 31 -> qwithin P ks ls cs -> qspecs ls cs = Some ls' ->
  exists s' ks', srun s (map q2d cs) = Some s' /\ qrel P ks' ls' s'.
Proof.
  induction cs as [|c cs IH]; intros ks ls s ls' Hrel HB Hw H; cbn [qspecs qwithin map srun] in *; [injection H as <-; eauto|].
  destruct (qspec ls c) as [ls1|] eqn:E; [|discriminate]. destruct (Hw _ eq_refl) as [HN Hw1].
  destruct (q_step P ks ls s c ls1 Hrel HB HN E) as (s1 & -> & Hrel1). eauto.
Qed.
Lemma qrun_UB P cs : forall w ks ls s e m, inv w s e m -> qrel P ks ls s -> (forall x k, ks !! x = Some k -> (k <= P)%nat) ->
  qwithin P ks ls cs -> Z.of_nat P + 3 < 2 ^ 31 -> qspecs ls cs = None -> qrun esz (e, m) cs = UB.
Proof.
  induction cs as [|c cs IH]; intros w ks ls s e m Hinv Hrel Hlen Hw Hlim Hs; cbn [qspecs qwithin qrun] in *; [discriminate|].
  rewrite qstep_eq. destruct (qspec ls c) as [ls1|] eqn:E.
  - destruct (Hw _ eq_refl) as [HN Hw1]. assert (HB : Z.of_nat (P / 8 + 1) < 2 ^ 31) by lia.
    destruct (q_step P ks ls s c ls1 Hrel HB HN E) as (s1 & E1 & Hrel1).
    destruct (step_ok esz Hblock _ _ _ _ _ _ Hinv E1) as (w1 & e1 & m1 & -> & Hinv1). cbn [obind]. eauto.
  - rewrite q_lstep in E. assert (Es : sstep s (q2d c) = None).
    { destruct (sstep s (q2d c)) as [s1|] eqn:X; [|reflexivity]. destruct Hrel as [Hsame _].
      destruct (same_step _ _ _ _ Hsame X) as (ls1 & E1 & _). congruence. }
    rewrite (step_UB esz Hblock w s e m (q2d c) (P + 1)%nat); [reflexivity|exact Hinv| | |exact Es].
    + intros x q Hx. destruct Hrel as [_ Hk]. destruct (Hk _ _ Hx) as (k & K1 & K2 & K3 & K4 & K5). specialize (Hlen _ _ K1). lia.
    + destruct c; cbn; lia.
Qed.
Lemma queue_long P cs : qwithin P ∅ ∅ cs -> Z.of_nat P + 3 < 2 ^ 31 ->
  match qspecs ∅ cs with
  | Some ls => exists e m, qrun esz (∅, mem0) cs = Ok (e, m) /\ (forall x, ls !! x = None <-> e !! x = None) /\
      forall x l d, ls !! x = Some l -> e !! x = Some d -> shows d m l /\ dbs d <= Z.of_nat (P / 8 + 1)
  | None => qrun esz (∅, mem0) cs = UB
  end.
Proof.
  intros Hw HP. assert (R0 : qrel P ∅ ∅ ∅).
  { split; [intros x; rewrite !lookup_empty; reflexivity|]. intros x q Hx. rewrite lookup_empty in Hx. discriminate. }
  destruct (qspecs ∅ cs) as [ls|] eqn:E.
  - destruct (q_run P cs ∅ ∅ ∅ ls R0) as (s & ks & Hs & Hrel); [lia|exact Hw|exact E|].
    destruct (run_ok esz Hblock _ _ _ _ _ _ inv0 Hs) as (w & e & m & Er & Hinv). exists e, m. rewrite qrun_eq. split; [exact Er|].
    destruct Hinv as (_ & Hd & _ & Hr & _). split.
    + intros x. rewrite <- Hd. destruct Hrel as [H _]. rewrite H. destruct (s !! x); split; intros; try discriminate; reflexivity.
    + intros x l d Hx Hv. destruct (qrel_some _ _ _ _ _ _ Hrel Hx) as (q & k & Hq & <- & _ & Hk). pose proof (Hr _ _ _ Hq Hv) as Hrep.
      split; [eapply shows_ok, Hrep|]. destruct Hrep as (-> & _). destruct Hk as (_ & _ & _ & [[X _]|(_ & _ & X)]); lia.
  - eapply qrun_UB; [exact inv0|exact R0| |exact Hw|exact HP|exact E]. intros x k H. rewrite lookup_empty in H. discriminate.
Qed.
End long.

(** ** Histories of every length *)
Fixpoint qrounds (n : nat) : list (qcmd Z) := match n with O => [] | S n => QPush 0 7 :: QPush 0 8 :: QPop 0 :: QPop 0 :: qrounds n end.
Lemma qw_one P ks ls ls1 ks1 c cs : qspec ls c = Some ls1 -> qsince ks ls c = ks1 -> (forall x k, ks1 !! x = Some k -> (k <= P)%nat) ->
  qwithin P ks1 ls1 cs -> @qwithin Z P ks ls (c :: cs).
Proof. intros H <- Hb Hw ls' E. rewrite H in E. injection E as <-. auto. Qed.
Lemma bound_one j x k : ({[0%nat := j]} : gmap nat nat) !! x = Some k -> (j <= 2)%nat -> (k <= 2)%nat.
Proof. intros H Hj. apply lookup_singleton_Some in H as [_ <-]. exact Hj. Qed.
Lemma qrounds_ok n : qspecs {[0%nat := []]} (qrounds n) = Some {[0%nat := []]} /\ qwithin 2 {[0%nat := 0%nat]} {[0%nat := []]} (qrounds n).
Proof.
  assert (E1 : qspec {[0%nat := []]} (QPush 0 7) = Some {[0%nat := [7]]}) by (cbn; unfold qon; rewrite lookup_singleton; cbn; rewrite insert_singleton; reflexivity).
  assert (E2 : qspec {[0%nat := [7]]} (QPush 0 8) = Some {[0%nat := [7; 8]]}) by (cbn; unfold qon; rewrite lookup_singleton; cbn; rewrite insert_singleton; reflexivity).
  assert (E3 : @qspec Z {[0%nat := [7; 8]]} (QPop 0) = Some {[0%nat := [8]]}) by (cbn; unfold qon; rewrite lookup_singleton; cbn; rewrite insert_singleton; reflexivity).
  assert (E4 : @qspec Z {[0%nat := [8]]} (QPop 0) = Some {[0%nat := []]}) by (cbn; unfold qon; rewrite lookup_singleton; cbn; rewrite insert_singleton; reflexivity).
  induction n as [|n [IH1 IH2]]; cbn [qrounds]; [split; [reflexivity|exact I]|]. split.
  - cbn [qspecs]. rewrite E1, E2, E3, E4. exact IH1.
  - eapply (qw_one 2 _ _ _ {[0%nat := 1%nat]}); [exact E1| |intros x k H; eapply bound_one; [exact H|lia]|].
    { cbn [qsince]. unfold since. rewrite lookup_singleton. cbn. apply insert_singleton. }
    eapply (qw_one 2 _ _ _ {[0%nat := 2%nat]}); [exact E2| |intros x k H; eapply bound_one; [exact H|lia]|].
    { cbn [qsince]. unfold since. rewrite lookup_singleton. cbn. apply insert_singleton. }
    eapply (qw_one 2 _ _ _ {[0%nat := 2%nat]}); [exact E3| |intros x k H; eapply bound_one; [exact H|lia]|].
    { cbn [qsince]. unfold since, count. rewrite !lookup_singleton. cbn. apply insert_singleton. }
    eapply (qw_one 2 _ _ _ {[0%nat := 0%nat]}); [exact E4| |intros x k H; eapply bound_one; [exact H|lia]|exact IH2].
    { cbn [qsince]. unfold since, count. rewrite !lookup_singleton. cbn. apply insert_singleton. }
Qed.
Lemma queue_rounds n : qspecs ∅ (QNew 0 :: qrounds n) = Some {[0%nat := []]} /\ qwithin 2 ∅ ∅ (QNew 0 :: qrounds n) /\
  length (qrounds n) = (4 * n)%nat.
Proof.
  split; [exact (proj1 (qrounds_ok n))|]. split.
  - eapply (qw_one 2 _ _ {[0%nat := []]} {[0%nat := 0%nat]}); [reflexivity|reflexivity|intros x k H; eapply bound_one; [exact H|lia]|apply qrounds_ok].
  - induction n as [|n IH]; cbn [qrounds length]; lia.
Qed.
(** A deque that is filled and emptied from its two ends. *)
Fixpoint drounds (n : nat) : list (dcmd Z) := match n with O => [] | S n => DPushBack 0 7 :: DPushBack 0 8 :: DPopFront 0 :: DPopBack 0 :: drounds n end.
Definition dq (l : list Z) (h : nat) : gmap nat (sq Z) := {[0%nat := {| elems := l; room := 1; head := h |}]}.
Lemma dround s : s = dq [] 0 -> sstep s (DPushBack 0 7) = Some (dq [7] 0) /\ sstep (dq [7] 0) (DPushBack 0 8) = Some (dq [7; 8] 0) /\
  sstep (dq [7; 8] 0) (DPopFront 0) = Some (dq [8] 1) /\ sstep (dq [8] 1) (DPopBack 0) = Some (dq [] 0).
Proof.
  intros ->. unfold dq. repeat split; cbn [sstep]; unfold on; rewrite lookup_singleton; cbn; rewrite insert_singleton; reflexivity.
Qed.
Definition tight (s : gmap nat (sq Z)) : Prop := forall x q, s !! x = Some q -> (len q <= 2 /\ room q <= 1)%nat.
Lemma dq_tight l h : (length l <= 2)%nat -> tight (dq l h).
Proof. intros H x q Hx. unfold dq in Hx. apply lookup_singleton_Some in Hx as [_ <-]. unfold len. cbn. lia. Qed.
Lemma drounds_run n : srun (dq [] 0) (drounds n) = Some (dq [] 0).
Proof.
  destruct (dround _ eq_refl) as (E1 & E2 & E3 & E4).
  induction n as [|n IH]; cbn [drounds srun]; [reflexivity|]. rewrite E1, E2, E3, E4. exact IH.
Qed.
Lemma drounds_tight n : forall k s, srun (dq [] 0) (take k (drounds n)) = Some s -> tight s.
Proof.
  destruct (dround _ eq_refl) as (E1 & E2 & E3 & E4).
  induction n as [|n IH]; intros k s H; cbn [drounds] in H.
  { rewrite take_nil in H. injection H as <-. apply dq_tight. cbn. lia. }
  destruct k as [|[|[|[|k]]]]; cbn [take srun] in H; rewrite ?E1, ?E2, ?E3, ?E4 in H;
    [injection H as <-; apply dq_tight; cbn; lia..|exact (IH k s H)].
Qed.
Lemma drounds_adds n : forall k c, drounds n !! k = Some c -> (adds c <= 1)%nat.
Proof.
  induction n as [|n IH]; intros k c H; [discriminate|].
  destruct k as [|[|[|[|k]]]]; [injection H as <-; cbn; lia..|exact (IH k c H)].
Qed.
Lemma deque_rounds n : srun ∅ (DInit 0 [1] :: DPopBack 0 :: drounds n) = Some (dq [] 0) /\ within (DInit 0 [1] :: DPopBack 0 :: drounds n) /\
  length (drounds n) = (4 * n)%nat.
Proof.
  assert (E1 : sstep ∅ (DInit 0 [1]) = Some (dq [1] 0)) by reflexivity.
  assert (E2 : sstep (dq [1] 0) (DPopBack 0) = Some (dq [] 0)).
  { unfold dq. cbn [sstep]. unfold on. rewrite lookup_singleton. cbn. rewrite insert_singleton. reflexivity. }
  split; [|split].
  - cbn [srun]. rewrite E1, E2. apply drounds_run.
  - intros k s c H Hc.
    assert (T : tight s /\ (adds c <= 1)%nat).
    { destruct k as [|[|k]]; cbn [take srun] in H; rewrite ?E1, ?E2 in H.
      - injection H as <-. injection Hc as <-. split; [|cbn; lia]. intros x q Hx. rewrite lookup_empty in Hx. discriminate.
      - injection H as <-. injection Hc as <-. split; [apply dq_tight; cbn; lia|cbn; lia].
      - split; [exact (drounds_tight n k s H)|exact (drounds_adds n k c Hc)]. }
    destruct T as [T1 T2]. split; [lia|]. intros x q Hx. specialize (T1 _ _ Hx). lia.
  - induction n as [|n IH]; cbn [drounds length]; lia.
Qed.
