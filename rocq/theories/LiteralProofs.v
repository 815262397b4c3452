From stdpp Require Import list.
From Coq Require Import NArith Lia ZifyN ZifyNat.
From Verif Require Import LiteralModel.
Local Open Scope N_scope.

Lemma lit_ok n k : n * 2 ^ k < 2 ^ 64 -> N.shiftl n k mod 2 ^ 64 = n * 2 ^ k.
Proof. intros H. rewrite N.shiftl_mul_pow2. apply N.mod_small. exact H. Qed.

Lemma literals_ok n :
  (n * 1024 < 2 ^ 64 -> lit_KB n = n * 1024) /\
  (n * 1048576 < 2 ^ 64 -> lit_MB n = n * 1048576) /\
  (n * 1073741824 < 2 ^ 64 -> lit_GB n = n * 1073741824).
Proof.
  split; [|split]; intros H.
  - exact (lit_ok n 10 H).
  - exact (lit_ok n 20 H).
  - exact (lit_ok n 30 H).
Qed.

Lemma literals_wrap n :
  lit_KB n = (n * 1024) mod 2 ^ 64 /\ lit_MB n = (n * 1048576) mod 2 ^ 64 /\ lit_GB n = (n * 1073741824) mod 2 ^ 64.
Proof. unfold lit_KB, lit_MB, lit_GB. rewrite !N.shiftl_mul_pow2. auto. Qed.

Lemma make_seq_helper_ok n : forall idx, make_seq_helper n idx = seq 0 n ++ idx.
Proof.
  induction n as [|n IH]; intros idx; [reflexivity|].
  cbn [make_seq_helper]. rewrite IH. rewrite seq_S, <- app_assoc. reflexivity.
Qed.
Lemma make_index_sequence_ok n : make_index_sequence n = seq 0 n.
Proof. unfold make_index_sequence. rewrite make_seq_helper_ok. apply app_nil_r. Qed.

Lemma swap_prefix {A} (l r : list A) k : (k <= length l)%nat -> length l = length r ->
  fold_left swap_at (seq 0 k) (l, r) = (take k r ++ drop k l, take k l ++ drop k r).
Proof.
  intros Hk Hl. induction k as [|k IH]; [reflexivity|].
  rewrite seq_S, fold_left_app, IH by lia. cbn [fold_left]. rewrite Nat.add_0_l.
  destruct (lookup_lt_is_Some_2 l k ltac:(lia)) as [a Ha].
  destruct (lookup_lt_is_Some_2 r k ltac:(lia)) as [b Hb].
  unfold swap_at. cbn [fst snd].
  assert (L1 : length (take k r) = k) by (rewrite take_length; lia).
  assert (L2 : length (take k l) = k) by (rewrite take_length; lia).
  rewrite (lookup_app_r (take k r)), (lookup_app_r (take k l)) by lia. rewrite L1, L2, Nat.sub_diag.
  rewrite !lookup_drop, !Nat.add_0_r, Ha, Hb.
  rewrite (take_S_r r k b Hb), (take_S_r l k a Ha).
  rewrite (drop_S l a k Ha), (drop_S r b k Hb).
  f_equal; rewrite insert_app_r_alt by lia.
  - rewrite L1, Nat.sub_diag. cbn. rewrite <- app_assoc. reflexivity.
  - rewrite L2, Nat.sub_diag. cbn. rewrite <- app_assoc. reflexivity.
Qed.

Lemma tuple_swap_ok {A} (l r : list A) : length l = length r -> tuple_swap l r = (r, l).
Proof.
  intros H. unfold tuple_swap. rewrite make_index_sequence_ok, swap_prefix by lia.
  rewrite (drop_ge l), (drop_ge r), (take_ge r), (take_ge l), !app_nil_r by lia. reflexivity.
Qed.
