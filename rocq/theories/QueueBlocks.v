(** The number of blocks of a queue in use, exactly. *)
From stdpp Require Import gmap list.
From Coq Require Import ZArith Lia ZifyBool ZifyNat.
From Verif Require Import Base ObjModel ObjSpec ObjProofs DequeModel DequeSpec DequeProofs DequeOps DequeRun DequeFacts DequeStorage QueueBlocksSpec.
Local Open Scope Z_scope.
Ltac Zify.zify_post_hook ::= Z.div_mod_to_equations.

Lemma after_le r k : (r <= after r k)%nat.
Proof. unfold after. lia. Qed.
Lemma fold_after_le ks : forall r, (r <= fold_left after ks r)%nat.
Proof. induction ks as [|k ks IH]; intros r; cbn [fold_left]; [lia|]. pose proof (after_le r k). pose proof (IH (after r k)). lia. Qed.
Lemma after_mono r k k' : (k <= k')%nat -> (after r k <= after r k')%nat.
Proof. unfold after. lia. Qed.

Section blocks.
Context {A : Type} (esz : Z).
Implicit Types (q : sq A) (l : list (option A)).

Lemma stretches_first l : forall n k, exists k1 ks, stretches n k l = k1 :: ks /\ (k <= k1)%nat.
Proof.
  induction l as [|[a|] l IH]; intros n k; cbn [stretches]; [eauto| |].
  - destruct (IH (S n) (S k)) as (k1 & ks & -> & H). exists k1, ks. split; [reflexivity|lia].
  - destruct (Nat.eqb n 1); [eauto|apply IH].
Qed.

(** [r] blocks when it was last empty, [k] pushes since. *)
Definition bstate (n k r : nat) q : Prop :=
  len q = n /\ (n <= k)%nat /\ (n = 0%nat -> k = 0%nat) /\ room q = after r k /\ (head q + n = r / 2 * 16 + k)%nat.
Lemma b_push n k r q a : bstate n k r q -> Z.of_nat (after r (S k)) < 2 ^ 31 ->
  exists q', spush_back a q = Some q' /\ elems q' = elems q ++ [a] /\ bstate (S n) (S k) r q'.
Proof.
  intros (H1 & H2 & H3 & H4 & H5) HB. unfold spush_back. rewrite H1.
  destruct (Nat.eqb_spec (room q) 0) as [X|X].
  - eexists. split; [reflexivity|]. split; [reflexivity|].
    unfold bstate, after, len in *. cbn [elems room head]. rewrite app_length. cbn [length]. lia.
  - destruct (Nat.ltb_spec (head q + Nat.max n 1) (16 * room q)) as [Y|Y].
    + eexists. split; [reflexivity|]. split; [reflexivity|].
      unfold bstate, after, len in *. cbn [elems room head]. rewrite app_length. cbn [length]. lia.
    + assert (E : (S (room q) = after r (S k))%nat) by (unfold after in *; lia).
      destruct (Z.ltb_spec (Z.of_nat (room q) + 1) (2 ^ 31)) as [Z|Z]; [|lia].
      eexists. split; [reflexivity|]. split; [reflexivity|].
      unfold bstate, len in *. cbn [elems room head]. rewrite app_length. cbn [length]. split; [lia|]. split; [lia|]. split; [lia|]. split; [exact E|lia].
Qed.
Lemma b_pop n k r q q' : bstate n k r q -> spop_front q = Some q' ->
  if Nat.eqb n 1 then bstate 0 0 (after r k) q' else bstate (n - 1) k r q'.
Proof.
  intros (H1 & H2 & H3 & H4 & H5). unfold spop_front, len in *. destruct (elems q) as [|a l] eqn:E; [discriminate|]. intros [= <-].
  cbn [length] in H1. unfold bstate, len, keep. cbn [elems room head].
  destruct l as [|b l]; cbn [length] in *; subst n; cbn [Nat.eqb].
  - split; [lia|]. split; [lia|]. split; [lia|]. rewrite H4. split; [unfold after at 2; lia|lia].
  - split; [lia|]. split; [lia|]. split; [lia|]. split; [exact H4|lia].
Qed.
Lemma b_run l : forall n k r q ls ls', bstate n k r q -> ls !! 0%nat = Some (elems q) ->
  Z.of_nat (fold_left after (stretches n k l) r) < 2 ^ 31 ->
  qspecs ls (map op l) = Some ls' -> forall s : gmap nat (sq A), s !! 0%nat = Some q ->
  exists s' q', srun s (map q2d (map op l)) = Some s' /\ s' !! 0%nat = Some q' /\ room q' = fold_left after (stretches n k l) r.
Proof.
  induction l as [|o l IH]; intros n k r q ls ls' Hq Hls HB Hl s Hs; cbn [map qspecs srun stretches] in *.
  - exists s, q. split; [reflexivity|]. split; [exact Hs|]. cbn [fold_left]. apply Hq.
  - destruct o as [a|]; cbn [op qspec q2d sstep] in *.
    + unfold qon in Hl. rewrite Hls in Hl. destruct (b_push n k r q a Hq) as (q' & E & Ee & Hq').
      { destruct (stretches_first l (S n) (S k)) as (k1 & ks & Es & Hk). rewrite Es in HB. cbn [fold_left] in HB.
        pose proof (after_mono r _ _ Hk) as M1. pose proof (fold_after_le ks (after r k1)) as M2. clear - HB M1 M2. lia. }
      rewrite (on_eq _ _ _ _ _ Hs E). eapply (IH _ _ _ q'); [exact Hq'| |exact HB|exact Hl|apply lookup_insert].
      rewrite lookup_insert, Ee. reflexivity.
    + unfold qon in Hl. rewrite Hls in Hl. destruct (elems q) as [|a l1] eqn:Eq; [discriminate|].
      assert (E : spop_front q = Some (keep l1 (room q) (S (head q)))) by (unfold spop_front; rewrite Eq; reflexivity).
      pose proof (b_pop _ _ _ _ _ Hq E) as Hp. rewrite (on_eq _ _ _ _ _ Hs E).
      destruct (Nat.eqb n 1); cbn [fold_left] in *;
        (eapply (IH _ _ _ _); [exact Hp| |exact HB|exact Hl|apply lookup_insert]; rewrite lookup_insert; reflexivity).
Qed.
Lemma blocks_exact l ls : 16 * esz < 2 ^ 63 -> qspecs ∅ (qops l) = Some ls -> Z.of_nat (blocks (stretches 0 0 l)) < 2 ^ 31 ->
  exists e m d, qrun esz (∅, mem0) (qops l) = Ok (e, m) /\ e !! 0%nat = Some d /\ dbs d = Z.of_nat (blocks (stretches 0 0 l)).
Proof.
  intros He Hl HB. unfold qops in Hl. change (fun o : option A => _) with (@op A) in Hl. cbn [qspecs qspec] in Hl. unfold qnew in Hl. rewrite lookup_empty in Hl.
  destruct (b_run l 0 0 0 sq0 _ _ ltac:(split; [reflexivity|]; split; [lia|]; split; [lia|]; split; reflexivity) (lookup_insert _ _ _) HB Hl (<[0%nat := sq0]> ∅) (lookup_insert _ _ _))
    as (s & q & Hs & Hq & Hr).
  assert (Hs' : srun ∅ (map q2d (qops l)) = Some s).
  { unfold qops. change (fun o : option A => _) with (@op A). cbn [map q2d srun sstep]. unfold new. rewrite lookup_empty. exact Hs. }
  destruct (run_ok esz He _ _ _ _ _ _ inv0 Hs') as (w & e & m & E & Hinv).
  destruct (dbs_room _ _ _ _ _ Hinv Hq) as (d & Hd & Hn). exists e, m, d. rewrite qrun_eq. split; [exact E|]. split; [exact Hd|].
  rewrite Hn. f_equal. exact Hr.
Qed.
End blocks.

(** Stretches of at most K pushes lead to at most twice the blocks one of them needs. *)
Lemma blocks_bound K ks : (1 <= K)%nat -> Forall (fun k => (k <= K)%nat) ks -> (blocks ks <= 2 * ((K + 15) / 16) - 1)%nat.
Proof.
  intros HK H. unfold blocks. set (c := ((K + 15) / 16)%nat).
  assert (G : forall r, (r <= 2 * c - 1)%nat -> (fold_left after ks r <= 2 * c - 1)%nat); [|apply G; lia].
  induction H as [|k ks Hk H IH]; intros r G; cbn [fold_left]; [exact G|]. apply IH.
  pose proof (after_mono r _ _ Hk) as M. unfold after in *. fold c in M.
  assert (1 <= c)%nat by (unfold c; lia). clearbody c. lia.
Qed.
(** As many stretches of K pushes as that number has binary digits reach it. *)
Lemma blocks_limit K n : (1 <= K)%nat -> (2 * ((K + 15) / 16) <= 2 ^ n)%nat -> blocks (replicate n K) = (2 * ((K + 15) / 16) - 1)%nat.
Proof.
  intros HK. set (c := ((K + 15) / 16)%nat). assert (Hc : (1 <= c)%nat) by (unfold c; lia). intros Hn. unfold blocks.
  assert (G : forall n r, (r <= 2 * c - 1)%nat -> (2 * c - r <= 2 ^ n)%nat -> fold_left after (replicate n K) r = (2 * c - 1)%nat).
  { clear n Hn. induction n as [|n IH]; intros r H1 H2; cbn [replicate fold_left].
    - change (2 ^ 0)%nat with 1%nat in H2. lia.
    - rewrite Nat.pow_succ_r' in H2. apply IH; unfold after; fold c; clear IH; generalize dependent (2 ^ n)%nat; clearbody c; intros; lia. }
  apply G; lia.
Qed.
