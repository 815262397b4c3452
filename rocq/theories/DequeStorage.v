(** Storage of a queue in use. *)
From stdpp Require Import gmap list.
From Coq Require Import ZArith Lia ZifyBool ZifyNat.
From Verif Require Import Base ObjModel ObjSpec ObjProofs DequeModel DequeSpec DequeProofs DequeOps DequeRun DequeFacts.
Local Open Scope Z_scope.
Ltac Zify.zify_post_hook ::= Z.div_mod_to_equations.

Section storage.
Context {A : Type} (esz : Z).
Implicit Types (q : sq A) (l : list (option A)).

Definition qstate (n k P : nat) q : Prop :=
  len q = n /\ (n <= k)%nat /\ (n = 0%nat -> k = 0%nat) /\
  (room q = 0%nat /\ n = 0%nat \/
   (0 < room q)%nat /\ (head q + Nat.max n 1 <= room q / 2 * 16 + Nat.max k 1)%nat /\ (room q <= P / 8 + 1)%nat).
Lemma q_push n k P q a : qstate n k P q -> (S k <= P)%nat -> Z.of_nat (P / 8 + 1) < 2 ^ 31 ->
  exists q', spush_back a q = Some q' /\ elems q' = elems q ++ [a] /\ qstate (S n) (S k) P q'.
Proof.
  intros (H1 & H2 & H3 & H4) HP HB. unfold spush_back. rewrite H1.
  destruct H4 as [[H4 ->]|(H4 & H5 & H6)].
  - rewrite H4. cbn [Nat.eqb]. eexists. split; [reflexivity|]. split; [reflexivity|].
    unfold qstate, len in *. cbn [elems room head]. rewrite app_length. cbn [length]. split; [lia|]. split; [lia|]. split; [lia|]. right. lia.
  - destruct (Nat.eqb_spec (room q) 0) as [X|_]; [lia|]. destruct (Nat.ltb_spec (head q + Nat.max n 1) (16 * room q)) as [X|X].
    + eexists. split; [reflexivity|]. split; [reflexivity|].
      unfold qstate, len in *. cbn [elems room head]. rewrite app_length. cbn [length]. split; [lia|]. split; [lia|]. split; [lia|]. right. lia.
    + destruct (Z.ltb_spec (Z.of_nat (room q) + 1) (2 ^ 31)) as [Y|Y]; [|lia].
      eexists. split; [reflexivity|]. split; [reflexivity|].
      unfold qstate, len in *. cbn [elems room head]. rewrite app_length. cbn [length]. split; [lia|]. split; [lia|]. split; [lia|]. right. lia.
Qed.
Lemma q_pop n k P q q' : qstate n k P q -> spop_front q = Some q' -> qstate (n - 1) (if Nat.eqb n 1 then 0 else k) P q'.
Proof.
  intros (H1 & H2 & H3 & H4). unfold spop_front, len in *. destruct (elems q) as [|a l] eqn:E; [discriminate|]. intros [= <-].
  cbn [length] in H1. unfold qstate, len, keep. cbn [elems room head]. split; [lia|].
  destruct l as [|b l]; cbn [length] in *; subst n; cbn [Nat.eqb].
  - split; [lia|]. split; [lia|]. right. lia.
  - split; [lia|]. split; [lia|]. right. lia.
Qed.
Definition op (o : option A) : qcmd A := match o with Some a => QPush 0 a | None => QPop 0 end.
Lemma ops_run l : forall n k P q ls ls', qstate n k P q -> ls !! 0%nat = Some (elems q) -> (longest n k l <= P)%nat -> Z.of_nat (P / 8 + 1) < 2 ^ 31 ->
  qspecs ls (map op l) = Some ls' -> forall s : gmap nat (sq A), s !! 0%nat = Some q ->
  exists s' q' n' k', srun s (map q2d (map op l)) = Some s' /\ s' !! 0%nat = Some q' /\ qstate n' k' P q'.
Proof.
  induction l as [|o l IH]; intros n k P q ls ls' Hq Hls HP HB Hl s Hs; cbn [map qspecs srun longest] in *; [eauto 10|].
  destruct o as [a|]; cbn [op qspec q2d sstep] in *.
  - unfold qon in Hl. rewrite Hls in Hl. destruct (q_push n k P q a Hq) as (q' & E & Ee & Hq'); [lia|exact HB|].
    rewrite (on_eq _ _ _ _ _ Hs E). eapply (IH _ _ _ q'); [exact Hq'| |lia|exact HB|exact Hl|apply lookup_insert].
    rewrite lookup_insert, Ee. reflexivity.
  - unfold qon in Hl. rewrite Hls in Hl. destruct (elems q) as [|a l1] eqn:Eq; [discriminate|].
    assert (E : spop_front q = Some (keep l1 (room q) (S (head q)))) by (unfold spop_front; rewrite Eq; reflexivity).
    rewrite (on_eq _ _ _ _ _ Hs E). eapply (IH _ _ _ _); [exact (q_pop _ _ _ _ _ Hq E)| |exact HP|exact HB|exact Hl|apply lookup_insert].
    rewrite lookup_insert. reflexivity.
Qed.
Lemma dbs_room (e : gmap nat deq) (s : gmap nat (sq A)) w m q : inv w s e m -> s !! 0%nat = Some q -> exists d, e !! 0%nat = Some d /\ dbs d = Z.of_nat (room q).
Proof. intros H Hq. destruct (inv_env _ _ _ _ _ _ H Hq) as (d & Hd & (R & _)). eauto. Qed.
Lemma storage_bound l ls : 16 * esz < 2 ^ 63 -> qspecs ∅ (qops l) = Some ls -> Z.of_nat (longest 0 0 l / 8 + 1) < 2 ^ 31 ->
  exists e m d, qrun esz (∅, mem0) (qops l) = Ok (e, m) /\ e !! 0%nat = Some d /\ dbs d <= Z.of_nat (longest 0 0 l / 8 + 1) /\
    forall x, ls !! 0%nat = Some x -> shows d m x.
Proof.
  intros He Hl HB. pose proof Hl as Hl0. unfold qops in Hl. change (fun o : option A => _) with op in Hl. cbn [qspecs qspec] in Hl. unfold qnew in Hl. rewrite lookup_empty in Hl.
  destruct (ops_run l 0 0 (longest 0 0 l) sq0 _ _ ltac:(split; [reflexivity|]; split; [lia|]; split; [lia|]; left; auto) (lookup_insert _ _ _) (le_n _) HB Hl (<[0%nat := sq0]> ∅) (lookup_insert _ _ _))
    as (s & q & n & k & Hs & Hq & Hst).
  assert (Hs' : srun ∅ (map q2d (qops l)) = Some s).
  { unfold qops. change (fun o : option A => _) with op. cbn [map q2d srun sstep]. unfold new. rewrite lookup_empty. exact Hs. }
  destruct (run_ok esz He _ _ _ _ _ _ inv0 Hs') as (w & e & m & E & Hinv).
  destruct (inv_env _ _ _ _ _ _ Hinv Hq) as (d & Hd & Hr). exists e, m, d. rewrite qrun_eq. split; [exact E|]. split; [exact Hd|]. split.
  - destruct Hr as (R & _). rewrite R. destruct Hst as (_ & _ & _ & [[X _]|(_ & _ & X)]); lia.
  - intros x Hx. assert (Hx' : x = elems q).
    { assert (Hqs : forall (cs : list (qcmd A)) ls1 s1 ls2 s2, same ls1 s1 -> qspecs ls1 cs = Some ls2 -> srun s1 (map q2d cs) = Some s2 -> same ls2 s2).
      { clear. induction cs as [|c cs IH]; intros ls1 s1 ls2 s2 H H1 H2; cbn [qspecs map srun] in *; [injection H1 as <-; injection H2 as <-; exact H|].
        destruct (qspec ls1 c) as [l3|] eqn:E1; [|discriminate]. destruct (sstep s1 (q2d c)) as [s3|] eqn:E2; [|discriminate].
        eapply IH; [|exact H1|exact H2]. destruct (same_step _ _ _ _ H E2) as (l4 & E4 & H4).
        assert (El : lstep ls1 (q2d c) = qspec ls1 c) by (destruct c; reflexivity). rewrite El, E1 in E4. congruence. }
      specialize (Hqs (qops l) ∅ ∅ ls s ltac:(intros y; rewrite !lookup_empty; reflexivity) Hl0 Hs' 0%nat). rewrite Hx, Hq in Hqs. cbn in Hqs. congruence. }
    subst x. eapply shows_ok, Hr.
Qed.

(** Two elements at a time are enough to use any number of blocks. *)
Fixpoint churn (a : A) (n : nat) : list (option A) := match n with O => [] | S n' => Some a :: None :: churn a n' end.
Lemma churn_held a n : held 1 (churn a n) = (if Nat.eqb n 0 then 1 else 2)%nat.
Proof. induction n as [|n IH]; [reflexivity|]. cbn [churn held Nat.sub Nat.eqb]. rewrite IH. destruct (Nat.eqb n 0); reflexivity. Qed.
Lemma churn_run a n : forall h (s : gmap nat (sq A)) ls, s !! 0%nat = Some {| elems := [a]; room := h / 16 + 1; head := h |} ->
  ls !! 0%nat = Some [a] -> Z.of_nat ((h + n) / 16 + 1) < 2 ^ 31 ->
  exists s' ls', srun s (map q2d (map op (churn a n))) = Some s' /\ qspecs ls (map op (churn a n)) = Some ls' /\
    s' !! 0%nat = Some {| elems := [a]; room := (h + n) / 16 + 1; head := h + n |}.
Proof.
  induction n as [|n IH]; intros h s ls Hs Hls HB; cbn [churn map srun qspecs op q2d sstep qspec].
  - exists s, ls. rewrite Nat.add_0_r. auto.
  - set (q := {| elems := [a]; room := h / 16 + 1; head := h |}) in *.
    assert (E : exists r, spush_back a q = Some {| elems := [a; a]; room := r; head := h |} /\ r = (S h / 16 + 1)%nat).
    { unfold spush_back, q, len. cbn [room head elems length]. destruct (Nat.eqb_spec (h / 16 + 1) 0) as [X|_]; [lia|].
      destruct (Nat.ltb_spec (h + Nat.max 1 1) (16 * (h / 16 + 1))) as [X|X].
      - eexists. split; [reflexivity|]. lia.
      - destruct (Z.ltb_spec (Z.of_nat (h / 16 + 1) + 1) (2 ^ 31)) as [Y|Y]; [eexists; split; [reflexivity|]; lia|lia]. }
    destruct E as (r & E & Er). rewrite (on_eq _ _ _ _ _ Hs E). unfold qon at 1. rewrite Hls. cbn [app].
    unfold on. rewrite lookup_insert. cbn [spop_front elems room head keep]. unfold qon. rewrite lookup_insert. cbn [qspecs].
    destruct (IH (S h) (<[0%nat := keep [a] r (S h)]> (<[0%nat := {| elems := [a; a]; room := r; head := h |}]> s)) (<[0%nat := [a]]> (<[0%nat := [a; a]]> ls)))
      as (s' & ls' & H1 & H2 & H3).
    + rewrite lookup_insert. unfold keep. rewrite Er. reflexivity.
    + apply lookup_insert.
    + replace (S h + n)%nat with (h + S n)%nat by lia. exact HB.
    + exists s', ls'. split; [exact H1|]. split; [exact H2|]. replace (h + S n)%nat with (S h + n)%nat by lia. exact H3.
Qed.
Lemma storage_unbounded (a : A) (B : nat) : 16 * esz < 2 ^ 63 -> Z.of_nat B + 1 < 2 ^ 31 ->
  exists l ls e m d, qspecs ∅ (qops l) = Some ls /\ (held 0 l <= 2)%nat /\ qrun esz (∅, mem0) (qops l) = Ok (e, m) /\
    e !! 0%nat = Some d /\ Z.of_nat B < dbs d.
Proof.
  intros He HB. set (l := Some a :: churn a (16 * B)). exists l.
  set (q := {| elems := [a]; room := 0 / 16 + 1; head := 0 |}).
  assert (Hdiv : ((0 + 16 * B) / 16 + 1 = B + 1)%nat) by lia.
  destruct (churn_run a (16 * B) 0 (<[0%nat := q]> (<[0%nat := sq0]> ∅)) (<[0%nat := [a]]> (<[0%nat := []]> ∅))) as (s & ls & H1 & H2 & H3);
    [apply lookup_insert|apply lookup_insert|rewrite Hdiv; lia|].
  assert (Hs : srun ∅ (map q2d (qops l)) = Some s).
  { unfold qops. change (fun o : option A => _) with op. unfold l. cbn [map q2d srun sstep op]. unfold new. rewrite lookup_empty.
    unfold on. rewrite lookup_insert. exact H1. }
  destruct (run_ok esz He _ _ _ _ _ _ inv0 Hs) as (w & e & m & E & Hinv).
  destruct (inv_env _ _ _ _ _ _ Hinv H3) as (d & Hd & (R & _)).
  exists ls, e, m, d. split; [|split; [|split; [|split]]].
  - unfold qops. change (fun o : option A => _) with op. unfold l. cbn [map qspecs qspec op]. unfold qnew. rewrite lookup_empty.
    unfold qon at 1. rewrite lookup_insert. exact H2.
  - unfold l. cbn [held]. rewrite churn_held. destruct (Nat.eqb _ _); lia.
  - rewrite qrun_eq. exact E.
  - exact Hd.
  - rewrite R. cbn [room]. lia.
Qed.
End storage.

(** ** Stacks *)
Section stacks.
Context {A : Type} (esz : Z).
Implicit Types (q : sq A).
Definition kstate (N : nat) q : Prop := (head q <= room q / 2 * 16 /\ room q <= N / 8 + 1)%nat.
Definition krel (N : nat) (ls : gmap nat (list A)) (s : gmap nat (sq A)) : Prop :=
  same ls s /\ forall x q, s !! x = Some q -> kstate N q.
Lemma k_push N q a : kstate N q -> (len q < N)%nat -> Z.of_nat (N / 8 + 1) < 2 ^ 31 ->
  exists q', spush_back a q = Some q' /\ elems q' = elems q ++ [a] /\ kstate N q'.
Proof.
  intros [H1 H2] HN HB. unfold spush_back, kstate in *.
  destruct (Nat.eqb_spec (room q) 0) as [X|X]; [eexists; split; [reflexivity|]; split; [reflexivity|]; cbn [room head]; lia|].
  destruct (Nat.ltb_spec (head q + Nat.max (len q) 1) (16 * room q)) as [Y|Y]; [eexists; split; [reflexivity|]; split; [reflexivity|]; cbn [room head]; lia|].
  destruct (Z.ltb_spec (Z.of_nat (room q) + 1) (2 ^ 31)) as [Z|Z]; [eexists; split; [reflexivity|]; split; [reflexivity|]; cbn [room head]; lia|lia].
Qed.
Lemma k_push_all N l : forall q, kstate N q -> (len q + length l <= N)%nat -> Z.of_nat (N / 8 + 1) < 2 ^ 31 ->
  exists q', spush_all l q = Some q' /\ elems q' = elems q ++ l /\ kstate N q'.
Proof.
  induction l as [|a l IH]; intros q H HN HB; cbn [spush_all length] in *; [exists q; rewrite app_nil_r; auto|].
  destruct (k_push N q a H) as (q1 & -> & E1 & H1); [lia|exact HB|].
  destruct (IH q1 H1) as (q2 & E2 & E3 & H2); [unfold len in *; rewrite E1, app_length; cbn [length]; lia|exact HB|].
  exists q2. split; [exact E2|]. split; [|exact H2]. rewrite E3, E1, <- app_assoc. reflexivity.
Qed.
Lemma k_copy N q : elems q <> [] -> (len q <= N)%nat -> Z.of_nat (N / 8 + 1) < 2 ^ 31 ->
  exists q', scopy q = Some q' /\ elems q' = elems q /\ kstate N q'.
Proof.
  intros Hq HN HB. unfold scopy, len in *. destruct (elems q) as [|a l] eqn:E; [contradiction|].
  destruct (k_push_all N (a :: l) sq0) as (q' & E1 & E2 & E3); [split; cbn; lia|unfold len; cbn [elems sq0]; cbn [length] in *; lia|exact HB|].
  exists q'. auto.
Qed.
Lemma krel_put N ls s x q : krel N ls s -> kstate N q -> krel N (<[x := elems q]> ls) (<[x := q]> s).
Proof.
  intros [H1 H2] Hq. split; [apply same_put, H1|]. intros y p.
  destruct (decide (y = x)) as [->|Hne]; [rewrite lookup_insert; intros [= <-]; exact Hq|rewrite lookup_insert_ne by congruence; apply H2].
Qed.
Lemma krel_some N ls s x l : krel N ls s -> ls !! x = Some l -> exists q, s !! x = Some q /\ elems q = l /\ kstate N q.
Proof.
  intros [H1 H2] Hx. rewrite H1 in Hx. destruct (s !! x) as [q|] eqn:E; [|discriminate]. injection Hx as <-. eauto.
Qed.
Lemma krel_none N ls s x : krel N ls s -> ls !! x = None -> s !! x = None.
Proof. intros [H1 _] Hx. rewrite H1 in Hx. destruct (s !! x); [discriminate|reflexivity]. Qed.
Lemma kstate0 N : kstate N sq0.
Proof. split; cbn; lia. Qed.
Lemma full_inv (o : option (list A)) l : full o = Some l -> o = Some l /\ l <> [].
Proof. destruct o as [[|a k]|]; cbn; try discriminate. intros [= <-]. split; [reflexivity|discriminate]. Qed.
Lemma k_step N ls s c ls' : krel N ls s -> Z.of_nat (N / 8 + 1) < 2 ^ 31 -> (forall x l, ls' !! x = Some l -> (length l <= N)%nat) ->
  kspec ls c = Some ls' -> exists s', sstep s (k2d c) = Some s' /\ krel N ls' s'.
Proof.
  intros Hrel HB HN H. destruct c as [x|x y|x y|x|x a|x|x y|x y]; cbn [kspec k2d sstep] in *.
  - apply qnew_Some in H as [Hx ->]. rewrite (new_eq _ _ _ (krel_none _ _ _ _ Hrel Hx)). eexists. split; [reflexivity|].
    exact (krel_put _ _ _ x sq0 Hrel (kstate0 N)).
  - destruct (full (ls !! y)) as [l|] eqn:E; [|discriminate]. apply qnew_Some in H as [Hx ->]. apply full_inv in E as [Ey Hl].
    destruct (krel_some _ _ _ _ _ Hrel Ey) as (q & -> & <- & Hq).
    destruct (k_copy N q Hl) as (q' & -> & E2 & Hq'); [apply (HN x), lookup_insert|exact HB|].
    rewrite (new_eq _ _ _ (krel_none _ _ _ _ Hrel Hx)). eexists. split; [reflexivity|]. rewrite <- E2. apply krel_put; assumption.
  - destruct (ls !! y) as [l|] eqn:Ey; [|discriminate]. apply qnew_Some in H as [Hx ->].
    destruct (krel_some _ _ _ _ _ Hrel Ey) as (q & -> & <- & Hq). pose proof (krel_put _ _ _ y sq0 Hrel (kstate0 N)) as Hrel1.
    rewrite (new_eq _ _ _ (krel_none _ _ _ _ Hrel1 Hx)). eexists. split; [reflexivity|]. apply krel_put; assumption.
  - destruct (ls !! x) as [l|] eqn:Ex; [|discriminate]. injection H as <-. destruct (krel_some _ _ _ _ _ Hrel Ex) as (q & -> & _).
    eexists. split; [reflexivity|]. destruct Hrel as [H1 H2]. split; [apply same_del, H1|].
    intros y p Hy. apply lookup_delete_Some in Hy as [_ Hy]. eapply H2, Hy.
  - apply qon_Some in H as (l & l' & Hx & [= <-] & ->). destruct (krel_some _ _ _ _ _ Hrel Hx) as (q & Hq & <- & Hk).
    destruct (k_push N q a Hk) as (q' & E & E1 & Hk'); [|exact HB|].
    { specialize (HN x _ (lookup_insert _ _ _)). rewrite app_length in HN. cbn [length] in HN. unfold len. lia. }
    rewrite (on_eq _ _ _ _ _ Hq E). eexists. split; [reflexivity|]. rewrite <- E1. apply krel_put; assumption.
  - apply qon_Some in H as (l & l' & Hx & E & ->). destruct (krel_some _ _ _ _ _ Hrel Hx) as (q & Hq & <- & Hk).
    assert (Es : exists q', spop_back q = Some q' /\ elems q' = l' /\ kstate N q').
    { unfold spop_back, len. destruct (elems q) as [|a l]; [discriminate|]. injection E as <-. eexists. split; [reflexivity|]. split; [reflexivity|].
      destruct Hk as [K1 K2]. split; unfold keep; cbn [head room]; [|exact K2]. destruct (take _ _); [lia|exact K1]. }
    destruct Es as (q' & Es & <- & Hk'). rewrite (on_eq _ _ _ _ _ Hq Es). eexists. split; [reflexivity|]. apply krel_put; assumption.
  - destruct (full (ls !! y)) as [l|] eqn:E; [|discriminate]. apply qon_Some in H as (k & l' & Hx & [= <-] & ->). apply full_inv in E as [Ey Hl].
    destruct (krel_some _ _ _ _ _ Hrel Ey) as (q & -> & <- & Hq).
    destruct (k_copy N q Hl) as (q' & -> & E2 & Hq'); [apply (HN x), lookup_insert|exact HB|].
    destruct (krel_some _ _ _ _ _ Hrel Hx) as (p & Hp & _). rewrite (on_eq _ _ _ _ q' Hp eq_refl).
    eexists. split; [reflexivity|]. rewrite <- E2. apply krel_put; assumption.
  - destruct (ls !! x) as [l|] eqn:Ex; [|discriminate]. destruct (ls !! y) as [k|] eqn:Ey; [|discriminate]. injection H as <-.
    destruct (krel_some _ _ _ _ _ Hrel Ex) as (p & -> & <- & Hp). destruct (krel_some _ _ _ _ _ Hrel Ey) as (q & -> & <- & Hq).
    eexists. split; [reflexivity|]. apply krel_put; [apply krel_put|]; assumption.
Qed.
Lemma k_run N cs : forall ls s ls', krel N ls s -> Z.of_nat (N / 8 + 1) < 2 ^ 31 -> kwithin N ls cs -> kspecs ls cs = Some ls' ->
  exists s', srun s (map k2d cs) = Some s' /\ krel N ls' s'.
Proof.
  induction cs as [|c cs IH]; intros ls s ls' Hrel HB Hw H; cbn [kspecs kwithin map srun] in *; [injection H as <-; eauto|].
  destruct (kspec ls c) as [ls1|] eqn:E; [|discriminate]. destruct (Hw _ eq_refl) as [HN Hw1].
  destruct (k_step N ls s c ls1 Hrel HB HN E) as (s1 & -> & Hrel1). eauto.
Qed.
Lemma stack_history N (cs : list (kcmd A)) ls : 16 * esz < 2 ^ 63 -> kspecs ∅ cs = Some ls -> kwithin N ∅ cs -> Z.of_nat (N / 8 + 1) < 2 ^ 31 ->
  exists e m, krun esz (∅, mem0) cs = Ok (e, m) /\ (forall x, ls !! x = None <-> e !! x = None) /\
  forall x l d, ls !! x = Some l -> e !! x = Some d -> shows d m l /\ dbs d <= Z.of_nat (N / 8 + 1).
Proof.
  intros He Hl Hw HB. destruct (k_run N cs ∅ ∅ ls) as (s & Hs & Hrel); [|exact HB|exact Hw|exact Hl|].
  { split; [intros x; rewrite !lookup_empty; reflexivity|]. intros x q Hx. rewrite lookup_empty in Hx. discriminate. }
  destruct (run_ok esz He _ _ _ _ _ _ inv0 Hs) as (w & e & m & E & Hinv). exists e, m. rewrite krun_eq. split; [exact E|].
  destruct Hinv as (_ & Hd & _ & Hr & _). split.
  - intros x. rewrite <- Hd. destruct Hrel as [H _]. rewrite H. destruct (s !! x); split; intros; try discriminate; reflexivity.
  - intros x l d Hx Hv. destruct (krel_some _ _ _ _ _ Hrel Hx) as (q & Hq & <- & [_ Hk]). pose proof (Hr _ _ _ Hq Hv) as Hrep.
    split; [eapply shows_ok, Hrep|]. destruct Hrep as (-> & _). lia.
Qed.
End stacks.
