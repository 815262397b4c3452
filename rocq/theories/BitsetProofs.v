(** Proofs about BitsetModel. *)
From stdpp Require Import list.
From Coq Require Import NArith Lia ZifyBool ZifyNat ZifyN.
From Verif Require Import Base BitsetModel BitsetSpec.
Local Open Scope N_scope.
Ltac Zify.zify_post_hook ::= Z.div_mod_to_equations.

(** The bits a mask covers. *)
Definition covers (k j : N) : bool := if k =? 31 then (31 <=? j) && (j <? 64) else j =? k.

Lemma bit_mask_ok p : p mod 64 < 32 ->
  exists m, bit_mask p = Ok m /\ forall j, N.testbit m j = covers (p mod 64) j.
Proof.
  intros H. unfold bit_mask, covers. destruct (p mod 64 <? 31) eqn:E.
  - exists (2 ^ (p mod 64)). split; [reflexivity|]. intros j.
    replace (p mod 64 =? 31) with false by lia. rewrite N.pow2_bits_eqb. apply N.eqb_sym.
  - replace (p mod 64 =? 31) with true by lia. exists (2 ^ 64 - 2 ^ 31). split; [reflexivity|]. intros j.
    change (2 ^ 64 - 2 ^ 31) with (N.shiftl (N.ones 33) 31).
    destruct (31 <=? j) eqn:Ej.
    + rewrite N.shiftl_spec_high' by lia. cbn [andb].
      destruct (j <? 64) eqn:Ek; [apply N.ones_spec_low; lia|apply N.ones_spec_high; lia].
    + apply N.shiftl_spec_low. lia.
Qed.

Definition inv (n : N) (data : list N) (f : N -> bool) : Prop :=
  length data = N.to_nat (words n) /\
  forall p, usable n p -> exists w, data !! type_offset p = Some w /\
    forall j, covers (p mod 64) j = true -> N.testbit w j = f p.

Lemma covers_low k j : k < 32 -> covers k j = true -> j < 64.
Proof. unfold covers. intros. destruct (k =? 31) eqn:E; lia. Qed.

Lemma covers_distinct p q j : p mod 64 < 32 -> q mod 64 < 32 -> type_offset p = type_offset q ->
  covers (p mod 64) j = true -> covers (q mod 64) j = true -> p = q.
Proof.
  unfold covers, type_offset. intros Hp Hq Ht H1 H2.
  assert (p / 64 = q / 64) by lia. assert (p mod 64 = q mod 64); [|lia].
  destruct (p mod 64 =? 31) eqn:E1, (q mod 64 =? 31) eqn:E2; lia.
Qed.

Lemma type_offset_lt n p : p < n -> (type_offset p < N.to_nat (words n))%nat.
Proof. unfold type_offset, words. intros. lia. Qed.

(** Writing bits covered by position [p] to the value [v]. *)
Lemma inv_write n data f p w w' (v : bool) :
  inv n data f -> usable n p -> data !! type_offset p = Some w ->
  (forall j, j < 64 -> N.testbit w' j = if covers (p mod 64) j then v else N.testbit w j) ->
  inv n (<[type_offset p := w']> data) (fun q => if p =? q then v else f q).
Proof.
  intros [Hl Hi] [Hp1 Hp2] Hw Hb. split; [rewrite insert_length; exact Hl|].
  intros q [Hq1 Hq2]. destruct (decide (type_offset p = type_offset q)) as [Ht|Ht].
  - rewrite <- Ht. exists w'.
    split; [apply list_lookup_insert; rewrite Hl; apply type_offset_lt; exact Hp1|].
    intros j Hj. rewrite Hb by (eapply covers_low; eassumption).
    destruct (p =? q) eqn:E.
    + assert (p = q) as -> by lia. rewrite Hj. reflexivity.
    + destruct (covers (p mod 64) j) eqn:Ec.
      * exfalso. assert (p = q) by (eapply covers_distinct; eassumption). lia.
      * destruct (Hi q) as (w2 & Hw2 & Hf); [split; assumption|]. rewrite <- Ht, Hw in Hw2.
        injection Hw2 as <-. apply Hf. exact Hj.
  - rewrite list_lookup_insert_ne by exact Ht.
    replace (p =? q) with false by (destruct (N.eqb_spec p q); [congruence|reflexivity]).
    apply Hi. split; assumption.
Qed.

Lemma inv_step n data f o : inv n data f -> op_in (usable n) o ->
  exists data', bs_step data o = Ok data' /\ inv n data' (fun q => last_given (f q) [o] q).
Proof.
  intros Hinv Hop. destruct o as [p|p|b]; cbn [op_in] in Hop.
  - destruct (proj2 Hinv p Hop) as (w & Hw & _). destruct (bit_mask_ok p) as (m & Hm & Hb); [apply Hop|].
    cbn [bs_step]. unfold bs_set. rewrite Hw, Hm. cbn. eexists. split; [reflexivity|].
    eapply (inv_write n data f p w _ true); try eassumption.
    intros j _. rewrite N.lor_spec, Hb. destruct (covers _ j); [apply orb_true_r|apply orb_false_r].
  - destruct (proj2 Hinv p Hop) as (w & Hw & _). destruct (bit_mask_ok p) as (m & Hm & Hb); [apply Hop|].
    cbn [bs_step]. unfold bs_clear. rewrite Hw, Hm. cbn. eexists. split; [reflexivity|].
    eapply (inv_write n data f p w _ false); try eassumption.
    intros j Hj. rewrite N.land_spec, N.lnot_spec_low, Hb by exact Hj.
    destruct (covers _ j); [apply andb_false_r|apply andb_true_r].
  - destruct Hinv as [Hl Hi]. cbn [bs_step last_given]. eexists. split; [reflexivity|]. split.
    + unfold bs_reset. rewrite map_length. exact Hl.
    + intros p Hp. destruct (Hi p Hp) as (w & Hw & _). exists (if b then 2 ^ 64 - 1 else 0). split.
      * unfold bs_reset. rewrite list_lookup_fmap, Hw. reflexivity.
      * intros j Hj. assert (j < 64) by (eapply covers_low; [apply Hp|exact Hj]).
        destruct b; [change (2 ^ 64 - 1) with (N.ones 64); apply N.ones_spec_low; lia|apply N.bits_0].
Qed.

Lemma inv_ext n data f g : (forall p, f p = g p) -> inv n data f -> inv n data g.
Proof.
  intros He [Hl Hi]. split; [exact Hl|]. intros p Hp. destruct (Hi p Hp) as (w & Hw & Hf).
  exists w. split; [exact Hw|]. intros j Hj. rewrite <- He. apply Hf. exact Hj.
Qed.

Lemma last_given_cons v o os p : last_given v (o :: os) p = last_given (last_given v [o] p) os p.
Proof. destruct o; reflexivity. Qed.

Lemma inv_run n os : forall data f, inv n data f -> Forall (op_in (usable n)) os ->
  exists data', bs_run data os = Ok data' /\ inv n data' (fun q => last_given (f q) os q).
Proof.
  induction os as [|o os IH]; intros data f Hinv Hos.
  - exists data. split; [reflexivity|exact Hinv].
  - inversion Hos as [|? ? Ho Hos']; subst.
    destruct (inv_step n data f o Hinv Ho) as (d1 & Hd1 & Hi1).
    destruct (IH d1 _ Hi1 Hos') as (d2 & Hd2 & Hi2).
    exists d2. cbn [bs_run]. rewrite Hd1. cbn. split; [exact Hd2|].
    eapply inv_ext; [|exact Hi2]. intros p. symmetry. apply last_given_cons.
Qed.

Lemma inv_make n b : inv n (bs_make n b) (fun _ => b).
Proof.
  assert (H0 : inv n (replicate (N.to_nat (words n)) 0) (fun _ => false)).
  { split; [apply replicate_length|]. intros p [Hp1 Hp2]. exists 0. split.
    - apply lookup_replicate_2. apply type_offset_lt. exact Hp1.
    - intros j _. apply N.bits_0. }
  destruct (inv_step n _ _ (BReset b) H0) as (d & [= <-] & Hi); [exact I|]. exact Hi.
Qed.

Lemma test_inv n data f p : inv n data f -> usable n p -> bs_test data p = Ok (f p).
Proof.
  intros [_ Hi] Hp. destruct (Hi p Hp) as (w & Hw & Hf). destruct (bit_mask_ok p) as (m & Hm & Hb); [apply Hp|].
  unfold bs_test. rewrite Hw, Hm. cbn. f_equal.
  assert (Hc : covers (p mod 64) (p mod 64) = true).
  { unfold covers. destruct Hp. destruct (p mod 64 =? 31) eqn:E; lia. }
  destruct (f p) eqn:Ef.
  - destruct (N.land w m =? 0) eqn:E; [|reflexivity]. exfalso.
    assert (N.land w m = 0) as E0 by lia.
    assert (N.testbit (N.land w m) (p mod 64) = true) as Ht
      by (rewrite N.land_spec, Hb, Hc, andb_true_r; apply Hf; exact Hc).
    rewrite E0, N.bits_0 in Ht. discriminate.
  - assert (N.land w m = 0) as ->; [|reflexivity].
    apply N.bits_inj_0. intros j. rewrite N.land_spec, Hb.
    destruct (covers (p mod 64) j) eqn:E; [|apply andb_false_r]. rewrite Hf by exact E. reflexivity.
Qed.

Lemma bitset_history n b os p :
  Forall (op_in (usable n)) os -> usable n p ->
  exists data, bs_run (bs_make n b) os = Ok data /\ bs_test data p = Ok (last_given b os p).
Proof.
  intros Hos Hp. destruct (inv_run n os _ _ (inv_make n b) Hos) as (d & Hd & Hi).
  exists d. split; [exact Hd|]. apply (test_inv n d _ p Hi Hp).
Qed.

Lemma bitset_bad : exists n p, p < n /\ bs_set (bs_make n false) p = UB /\ bs_test (bs_make n false) p = UB.
Proof. exists 64, 40. split; [reflexivity|]. split; vm_compute; reflexivity. Qed.

Lemma bitset_bad_all n p : p < n -> 32 <= p mod 64 ->
  bs_set (bs_make n false) p = UB /\ bs_clear (bs_make n false) p = UB /\ bs_test (bs_make n false) p = UB.
Proof.
  intros Hp Hm. assert (Hb : bit_mask p = UB).
  { unfold bit_mask. replace (p mod 64 <? 31) with false by lia. replace (p mod 64 =? 31) with false by lia. reflexivity. }
  assert (exists w, bs_make n false !! type_offset p = Some w) as [w Hw].
  { apply lookup_lt_is_Some_2. unfold bs_make, bs_reset. rewrite map_length, replicate_length.
    apply type_offset_lt. exact Hp. }
  unfold bs_set, bs_clear, bs_test. rewrite Hw, Hb. auto.
Qed.

Lemma bitset_count_bad : exists n os data, bs_run (bs_make n false) os = Ok data /\
  (forall p, p < n -> exists b, bs_test data p = Ok b /\ (b = true <-> p = 3)) /\ bs_count n <> 1.
Proof.
  exists 8, [BSet 3]. eexists. split; [vm_compute; reflexivity|]. split; [|discriminate].
  intros p Hp.
  assert (p = 0 \/ p = 1 \/ p = 2 \/ p = 3 \/ p = 4 \/ p = 5 \/ p = 6 \/ p = 7) as H by lia.
  decompose [or] H; subst; eexists; (split; [vm_compute; reflexivity|]); split; congruence.
Qed.
