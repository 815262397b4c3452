(** The records memory::init shows and the totals it gets wrong (C105). *)
From stdpp Require Import gmap list.
From Coq Require Import ZArith Lia ZifyBool ZifyNat ZifyN SpecFloat QArith String Ascii.
From Verif Require Import Base StringSpec PrintfModel PrintfSpec PrintfProofs E820Model E820Spec E820Proofs MapInitModel MapInitSpec FloatSpec MapInitProofs.
From Verif Require ConsoleSpec ConsoleExamples.
Local Open Scope N_scope.

Lemma raw_seq m n : forall a, map (fun i => read_entry m (a + 20 * N.of_nat i)) (seq 0 n) = raw_entries m a n.
Proof.
  induction n as [|n IH]; intros a; [reflexivity|]. cbn [seq map raw_entries]. rewrite <- seq_shift, map_map.
  replace (a + 20 * N.of_nat 0) with a by lia. f_equal. rewrite <- IH. apply map_ext. intros i. f_equal. lia.
Qed.
Lemma records_raw m : records m = upto (raw_entries m 0x7e00 16).
Proof. unfold records. rewrite raw_seq. reflexivity. Qed.
Lemma upto_app es rest : upto (es ++ rest) = es <-> Forall (fun e => e_type e <= 4) es /\ upto rest = [].
Proof.
  induction es as [|e es IH]; cbn [app upto]; [split; [auto|tauto]|].
  destruct (e_type e <=? 4) eqn:E.
  - split.
    + intros H. injection H as H. apply IH in H as [H1 H2]. split; [constructor; [lia|exact H1]|exact H2].
    + intros [H1 H2]. apply Forall_cons in H1 as [_ H1]. f_equal. apply IH. auto.
  - split; [discriminate|]. intros [H1 _]. apply Forall_cons in H1 as [H1 _]. lia.
Qed.
Lemma upto_length rs : (List.length (upto rs) <= List.length rs)%nat.
Proof. induction rs as [|r rs IH]; cbn [upto List.length]; [lia|]. case_match; cbn [List.length]; lia. Qed.
Lemma raw_length m n : forall a, List.length (raw_entries m a n) = n.
Proof. induction n as [|n IH]; intros a; cbn; [reflexivity|]. f_equal. apply IH. Qed.
Lemma records_exact m es : Forall entry_ok es ->
  (records (store_map m 0x7e00 es) = es <->
   (List.length es <= 16)%nat /\ Forall (fun e => e_type e <= 4) es /\ (List.length es = 16%nat \/ 4 < e_type (read_entry m (0x7e00 + 20 * N.of_nat (List.length es))))).
Proof.
  intros Hok. rewrite records_raw. destruct (decide (List.length es <= 16)%nat) as [L|L].
  - rewrite raw_entries_map by assumption. rewrite upto_app. split.
    + intros [H1 H2]. split; [exact L|]. split; [exact H1|]. destruct (16 - List.length es)%nat as [|n] eqn:E; [left; lia|].
      right. cbn [raw_entries upto] in H2. case_match; [discriminate H2|]. lia.
    + intros (_ & H1 & H2). split; [exact H1|]. destruct (16 - List.length es)%nat as [|n] eqn:E; [reflexivity|].
      destruct H2 as [H2|H2]; [lia|]. cbn [raw_entries upto]. replace (e_type _ <=? 4) with false by lia. reflexivity.
  - split; [|tauto]. intros H. exfalso. apply L. rewrite <- H. etransitivity; [apply upto_length|]. rewrite raw_length. lia.
Qed.

(** A machine with 2^53 bytes in one record and six records of one byte. *)
Definition ram_record (a l : N) : e820_entry := {| e_addr := a; e_len := l; e_type := 1 |}.
Definition six : list e820_entry := ram_record 0 (2 ^ 53) :: map (fun i => ram_record (2 ^ 54 + N.of_nat i) 1) (seq 0 6).
Definition no_memory : bytes := fun _ => 255.
Definition big_machine : bytes := store_map no_memory 0x7e00 six.

Lemma store_memory bs : forall m a, is_memory m -> Forall (fun b => b < 256) bs -> is_memory (store m a bs).
Proof.
  induction bs as [|b bs IH]; intros m a Hm Hb; [exact Hm|]. apply Forall_cons in Hb as [H1 H2]. cbn [store]. apply IH; [|exact H2].
  intros x. case_match; [exact H1|apply Hm].
Qed.
Lemma le_bytes_small n : forall x, Forall (fun b => b < 256) (le_bytes n x).
Proof. induction n as [|n IH]; intros x; cbn [le_bytes]; constructor; [apply N.mod_lt; lia|apply IH]. Qed.
Lemma map_memory es : forall m a, is_memory m -> is_memory (store_map m a es).
Proof.
  induction es as [|e es IH]; intros m a Hm; [exact Hm|]. cbn [store_map]. apply IH, store_memory; [exact Hm|].
  unfold entry_bytes. rewrite !Forall_app. repeat split; apply le_bytes_small.
Qed.
Lemma no_memory_ok : is_memory no_memory.
Proof. intros a. unfold no_memory. lia. Qed.
Lemma zero_memory_ok : is_memory (fun _ => 0).
Proof. intros a. lia. Qed.

Lemma same_text t1 : forall (g : nat -> option N) t2, Forall (fun c => c <> 0) t1 -> Forall (fun c => c <> 0) t2 ->
  (forall i c, (t1 ++ [0]) !! i = Some c -> g i = Some c) -> (forall i c, (t2 ++ [0]) !! i = Some c -> g i = Some c) -> t1 = t2.
Proof.
  induction t1 as [|c t1 IH]; intros g t2 N1 N2 H1 H2.
  - destruct t2 as [|d t2]; [reflexivity|]. apply Forall_cons in N2 as [N2 _]. pose proof (H1 0%nat 0 eq_refl). pose proof (H2 0%nat d eq_refl). congruence.
  - apply Forall_cons in N1 as [N1 N1']. destruct t2 as [|d t2].
    + pose proof (H1 0%nat c eq_refl). pose proof (H2 0%nat 0 eq_refl). congruence.
    + apply Forall_cons in N2 as [N2 N2']. pose proof (H1 0%nat c eq_refl). pose proof (H2 0%nat d eq_refl). f_equal; [congruence|].
      apply (IH (fun i => g (S i))); [exact N1'|exact N2'|intros i x Hx; apply (H1 (S i)), Hx|intros i x Hx; apply (H2 (S i)), Hx].
Qed.
Lemma written_byte m a cs m' i c : text_written m a cs m' -> cs !! i = Some c -> m' !! (a + N.of_nat i) = Some c.
Proof.
  intros W H. rewrite W. pose proof (lookup_lt_Some _ _ _ H). replace ((a <=? a + N.of_nat i) && (a + N.of_nat i <? a + N.of_nat (List.length cs))) with true by lia.
  replace (N.to_nat (a + N.of_nat i - a)) with i by lia. exact H.
Qed.
Lemma one_text call P Q : call_prints call P -> call_prints call Q -> exists t, P t /\ Q t.
Proof.
  intros HP HQ. destruct ConsoleExamples.long_case as (_ & _ & [R _] & _).
  destruct (HP _ 100 ltac:(lia) ltac:(lia) R) as (t & m1 & e1 & P1 & _ & Z1 & V1 & W1).
  destruct (HQ _ 100 ltac:(lia) ltac:(lia) R) as (t' & m2 & e2 & P2 & _ & Z2 & V2 & W2).
  rewrite V1 in V2. injection V2 as <- <-. exists t. split; [exact P1|].
  rewrite (same_text t (fun i => m1 !! (100 + N.of_nat i)) t' Z1 Z2); [exact P2| |].
  - intros i c Hc. eapply written_byte; [exact W1|exact Hc].
  - intros i c Hc. eapply written_byte; [exact W2|exact Hc].
Qed.
Lemma other_total t : total_line (2 ^ 53) t -> total_line (2 ^ 53 + 6) t -> False.
Proof.
  intros (i & q & di & dq & (Hq & M) & Ni & Nq & ->) (i' & q' & di' & dq' & (Hq' & M') & Ni' & Nq' & E).
  assert (i = 2 ^ 33 /\ q = 0) as [-> ->] by lia. assert (i' = 2 ^ 33 /\ q' = 1) as [-> ->] by lia.
  rewrite <- (numeral_unique 10 false ltac:(lia) di di' _ Ni Ni') in E. apply app_inv_head in E. apply app_inv_head in E. apply app_inv_head in E.
  rewrite (numeral_unique 10 false ltac:(lia) dq [48] 0 Nq) in E by (split; [reflexivity|split; [discriminate|intros c Hc; injection Hc as <-; reflexivity]]).
  rewrite (numeral_unique 10 false ltac:(lia) dq' [49] 1 Nq') in E by (split; [reflexivity|split; [discriminate|intros c Hc; discriminate Hc]]).
  vm_compute in E. discriminate E.
Qed.
Definition big_call : list N * list arg := (total_format, [ADbl (usage (S754_finite false (2 ^ 52) 1))]).
Lemma big_calls : List.last (init_calls big_machine) ([], []) = big_call.
Proof. vm_compute. reflexivity. Qed.
Lemma big_ram : ram (records big_machine) = 2 ^ 53 + 6.
Proof. vm_compute. reflexivity. Qed.
Lemma big_prints : call_prints big_call (total_line (2 ^ 53)).
Proof. apply value_prints; [lia|split; [vm_compute; reflexivity|vm_compute; exact I]|vm_compute; reflexivity|vm_compute; reflexivity]. Qed.
Lemma total_wrong : exists m, is_memory m /\ Forall (fun r => e_type r = 1 /\ e_addr r + e_len r <= 2 ^ 64) (records m) /\
  ~ call_prints (List.last (init_calls m) ([], [])) (total_line (ram (records m))).
Proof.
  exists big_machine. split; [apply map_memory, no_memory_ok|]. split.
  - apply Forall_forall. intros r Hr. apply elem_of_list_In in Hr. revert r Hr. apply List.Forall_forall.
    replace (records big_machine) with six by (vm_compute; reflexivity). repeat (apply List.Forall_cons; [split; [reflexivity|vm_compute; discriminate]|]). apply List.Forall_nil.
  - rewrite big_calls, big_ram. intros H. destruct (one_text _ _ _ big_prints H) as (t & H1 & H2). exact (other_total t H1 H2).
Qed.

(** One record in memory that is zero, and seventeen records. *)
Definition one : list e820_entry := [ram_record 0 0x9fc00].
Definition seventeen : list e820_entry := map (fun i => ram_record (0x100000 * N.of_nat i) 0x1000) (seq 0 17).
Definition three : list e820_entry := [ram_record 0 0x9fc00; {| e_addr := 0x9fc00; e_len := 0x400; e_type := 2 |}; ram_record 0x100000 0x3ff00000].
Definition good_map (es : list e820_entry) : Prop := Forall (fun e => entry_ok e /\ 1 <= e_type e <= 4) es.
Ltac maps := repeat (apply Forall_cons; split; [vm_compute; intuition discriminate|]); apply Forall_nil; exact I.
Lemma map_wrong :
  (exists m es, is_memory m /\ good_map es /\ List.length es = 1%nat /\ List.length (records (store_map m 0x7e00 es)) = 16%nat) /\
  (exists m es, is_memory m /\ good_map es /\ List.length es = 17%nat /\ records (store_map m 0x7e00 es) = take 16 es).
Proof.
  split.
  - exists (fun _ => 0), one. split; [exact zero_memory_ok|]. split; [unfold good_map, one; maps|]. split; [reflexivity|]. vm_compute. reflexivity.
  - exists no_memory, seventeen. split; [exact no_memory_ok|]. split; [unfold good_map, seventeen; cbn [map seq]; maps|]. split; [reflexivity|]. vm_compute. reflexivity.
Qed.
Lemma map_demo : is_memory (store_map no_memory 0x7e00 three) /\ records (store_map no_memory 0x7e00 three) = three /\ ram three = 0x3ff9fc00 /\
  Forall entry_ok three /\ 4 < e_type (read_entry no_memory (0x7e00 + 20 * N.of_nat (List.length three))).
Proof.
  split; [apply map_memory, no_memory_ok|]. split; [vm_compute; reflexivity|]. split; [vm_compute; reflexivity|]. split; [unfold three; maps|]. vm_compute. reflexivity.
Qed.
