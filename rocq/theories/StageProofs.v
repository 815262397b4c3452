(** Proofs about the smaller pieces of the boot path. *)
From stdpp Require Import list.
From Coq Require Import NArith Lia ZifyBool ZifyNat ZifyN.
From Verif Require Import Base E820Model E820Spec E820Proofs StageModel StageSpec.
Local Open Scope N_scope.

(** ** control register bits *)
Lemma testbit_small x b : x < 2 ^ 16 -> 16 <= b -> N.testbit x b = false.
Proof.
  intros Hx Hb. destruct (N.eq_dec x 0) as [->|H0]; [apply N.bits_0|]. apply N.bits_above_log2.
  apply N.log2_lt_pow2 in Hx; lia.
Qed.
Lemma join16 hi lo b : lo < 2 ^ 16 ->
  N.testbit (hi * 2 ^ 16 + lo) b = if b <? 16 then N.testbit lo b else N.testbit hi (b - 16).
Proof.
  intros Hlo. rewrite N.add_nocarry_lxor.
  - rewrite N.lxor_spec. destruct (N.ltb_spec b 16) as [Hb|Hb].
    + rewrite N.mul_pow2_bits_low by exact Hb. apply xorb_false_l.
    + rewrite N.mul_pow2_bits_high, (testbit_small lo) by assumption. apply xorb_false_r.
  - apply N.bits_inj. intros k. rewrite N.land_spec, N.bits_0. destruct (N.ltb_spec k 16) as [Hk|Hk].
    + rewrite N.mul_pow2_bits_low by exact Hk. reflexivity.
    + rewrite (testbit_small lo) by assumption. apply andb_false_r.
Qed.
Lemma bound16 x : (forall b, 16 <= b -> N.testbit x b = false) -> x < 2 ^ 16.
Proof.
  intros H. assert (x = x mod 2 ^ 16) as ->; [|apply N.mod_lt; discriminate].
  apply N.bits_inj. intros b. destruct (N.ltb_spec b 16) as [Hb|Hb].
  - rewrite N.mod_pow2_bits_low by exact Hb. reflexivity.
  - rewrite N.mod_pow2_bits_high by exact Hb. apply H, Hb.
Qed.
Lemma and16_bits x i b : i < 2 ^ 16 -> N.testbit (and16 x i) b = N.testbit x b && (N.testbit i b || (16 <=? b)).
Proof.
  intros Hi. unfold and16. rewrite join16.
  - rewrite N.land_spec. destruct (N.ltb_spec b 16) as [Hb|Hb].
    + rewrite N.mod_pow2_bits_low by exact Hb. replace (16 <=? b) with false by lia. rewrite orb_false_r. reflexivity.
    + rewrite N.div_pow2_bits. replace (b - 16 + 16) with b by lia. replace (16 <=? b) with true by lia.
      rewrite orb_true_r, andb_true_r. reflexivity.
  - apply bound16. intros k Hk. rewrite N.land_spec, (testbit_small i) by assumption. apply andb_false_r.
Qed.
Lemma or16_bits x i b : i < 2 ^ 16 -> N.testbit (or16 x i) b = N.testbit x b || N.testbit i b.
Proof.
  intros Hi. unfold or16. rewrite join16.
  - destruct (N.ltb_spec b 16) as [Hb|Hb].
    + rewrite N.lor_spec, N.mod_pow2_bits_low by exact Hb. reflexivity.
    + rewrite N.div_pow2_bits. replace (b - 16 + 16) with b by lia. rewrite (testbit_small i) by assumption.
      rewrite orb_false_r. reflexivity.
  - apply bound16. intros k Hk. rewrite N.lor_spec, (testbit_small i), N.mod_pow2_bits_high by assumption. reflexivity.
Qed.
Lemma land_bit d n : (N.land d (N.shiftl 1 n) =? 0) = negb (N.testbit d n).
Proof.
  rewrite N.shiftl_1_l. destruct (N.testbit d n) eqn:E.
  - apply N.eqb_neq. intros H. assert (N.testbit (N.land d (2 ^ n)) n = false) as X by (rewrite H; apply N.bits_0).
    rewrite N.land_spec, E, N.pow2_bits_true in X. discriminate.
  - apply N.eqb_eq. apply N.bits_inj. intros k. rewrite N.land_spec, N.bits_0. destruct (N.eq_dec k n) as [->|Hk].
    + rewrite E. reflexivity.
    + rewrite N.pow2_bits_false by congruence. apply andb_false_r.
Qed.
Lemma bits_fffb b : N.testbit 0xFFFB b || (16 <=? b) = negb (b =? 2).
Proof.
  destruct (N.ltb_spec b 16) as [Hb|Hb].
  - assert (forall k, (k < 16)%nat -> N.testbit 0xFFFB (N.of_nat k) || (16 <=? N.of_nat k) = negb (N.of_nat k =? 2)) as X.
    { intros k Hk. do 16 (destruct k as [|k]; [reflexivity|]). lia. }
    specialize (X (N.to_nat b)). rewrite N2Nat.id in X. apply X. lia.
  - rewrite (testbit_small 0xFFFB) by (try exact Hb; reflexivity). lia.
Qed.
Lemma bits_2 b : N.testbit 2 b = (b =? 1).
Proof. change 2 with (2 ^ 1). destruct (N.eqb_spec b 1) as [->|H]; [reflexivity|]. apply N.pow2_bits_false. congruence. Qed.
Lemma bits_600 b : N.testbit (N.shiftl 3 9) b = (b =? 9) || (b =? 10).
Proof.
  destruct (N.ltb_spec b 16) as [Hb|Hb].
  - assert (forall k, (k < 16)%nat -> N.testbit (N.shiftl 3 9) (N.of_nat k) = (N.of_nat k =? 9) || (N.of_nat k =? 10)) as X.
    { intros k Hk. do 16 (destruct k as [|k]; [reflexivity|]). lia. }
    specialize (X (N.to_nat b)). rewrite N2Nat.id in X. apply X. lia.
  - rewrite testbit_small by (try exact Hb; reflexivity). lia.
Qed.
(** Exactly the documented bits change, and only if the processor has SSE. *)
Lemma sse_exact a b c d r : let r' := enable_sse (a, b, c, d) r in
  (forall k, N.testbit (r_cr0 r') k =
     if N.testbit d 25 then (N.testbit (r_cr0 r) k && negb (k =? 2)) || (k =? 1) else N.testbit (r_cr0 r) k) /\
  (forall k, N.testbit (r_cr4 r') k =
     N.testbit (r_cr4 r) k || N.testbit d 25 && ((k =? 9) || (k =? 10))).
Proof.
  cbn zeta. unfold enable_sse. rewrite land_bit. destruct (N.testbit d 25); cbn [negb r_cr0 r_cr4].
  - split; intros k.
    + rewrite or16_bits, and16_bits by reflexivity. rewrite bits_fffb, bits_2. reflexivity.
    + rewrite or16_bits by reflexivity. rewrite bits_600. reflexivity.
  - split; intros k; [reflexivity|]. rewrite andb_false_l, orb_false_r. reflexivity.
Qed.
Lemma sse_rbx_refuted : exists q r, r_bx (enable_sse q r) <> r_bx r.
Proof. exists (0x663, 0x800, 0x80000001, 0x78bfbff), (Regs 0 0xffff800000104000 0 0 0x80010011 0x20). vm_compute. discriminate. Qed.
Lemma sse_rbx q r : r_bx (enable_sse q r) = snd (fst (fst q)).
Proof. destruct q as [[[a b] c] d]. unfold enable_sse. destruct (N.land d (N.shiftl 1 25) =? 0); reflexivity. Qed.

(** ** the memory map *)
Lemma get_lists b k es : lists b k es -> forall m di fuel, (length es <= fuel)%nat -> di + 20 * N.of_nat (length es) < 2 ^ 16 ->
  get_memory fuel b m di k = Ok (Some (store_map m di es)).
Proof.
  induction 1 as [k e E|k e k' es E Hk H IH]; intros m di fuel Hf Hd; (destruct fuel as [|fuel]; [cbn in Hf; lia|]); cbn [get_memory store_map].
  - rewrite E. reflexivity.
  - rewrite E. replace (k' =? 0) with false by lia. cbn [length] in *. rewrite N.mod_small by lia. apply IH; lia.
Qed.
Lemma get_carry b k es : lists_carry b k es -> forall m di fuel, (length es < fuel)%nat -> get_memory fuel b m di k = Ok None.
Proof.
  induction 1 as [k bs k' E|k e k' es E Hk H IH]; intros m di fuel Hf; (destruct fuel as [|fuel]; [cbn in Hf; lia|]); cbn [get_memory].
  - rewrite E. reflexivity.
  - rewrite E. replace (k' =? 0) with false by lia. apply IH. cbn [length] in Hf. lia.
Qed.
(** Every table of up to 1663 entries is in memory afterwards, entry by entry, and nothing else changed. *)
Lemma map_stored b es m fuel : lists b 0 es -> (length es <= 1663)%nat -> (length es <= fuel)%nat -> Forall entry_ok es ->
  exists m', store_memory_map fuel b m = Ok (Some m') /\
    (forall i e, es !! i = Some e -> read_entry m' (0x7E00 + 20 * N.of_nat i) = e) /\
    (forall a, a < 0x7E00 \/ 0x7E00 + 20 * N.of_nat (length es) <= a -> m' a = m a).
Proof.
  intros H Hl Hf Ho. exists (store_map m 0x7E00 es). split; [|split].
  - apply get_lists; [exact H|exact Hf|change (2 ^ 16) with 65536; lia].
  - intros i e Hi. apply read_map; assumption.
  - intros a Ha. apply store_map_outside. exact Ha.
Qed.
(** The video call keeps the first 25 entries. *)
Lemma map_after_svga m info i : (i < 25)%nat ->
  read_entry (get_svga info m) (0x7E00 + 20 * N.of_nat i) = read_entry m (0x7E00 + 20 * N.of_nat i).
Proof.
  intros Hi. apply read_entry_ext. intros x Hx. unfold get_svga. apply store_outside. left. lia.
Qed.
(** What the kernel then sees. *)
Lemma kernel_sees b es m fuel info : lists b 0 es -> (length es <= 20)%nat -> (length es <= fuel)%nat ->
  Forall entry_ok es -> Forall entry_plain es ->
  (length es = 20%nat \/ ~ entry_plain (read_entry m (0x7E00 + 20 * N.of_nat (length es)))) ->
  exists m', store_memory_map fuel b m = Ok (Some m') /\ e820_init (get_svga info m') = (es, usable_total es mod 2 ^ 64).
Proof.
  intros H Hl Hf Ho Hp Ht. exists (store_map m 0x7E00 es). split.
  { apply get_lists; [exact H|exact Hf|change (2 ^ 16) with 65536; lia]. }
  rewrite <- (init_exact m es Ho Hp Hl Ht). unfold e820_init.
  assert (forall n a av m1 m2, (forall x, a <= x < a + 20 * N.of_nat n -> m1 x = m2 x) -> scan m1 a n av = scan m2 a n av) as X.
  { induction n as [|n IH]; intros a av m1 m2 E; [reflexivity|]. cbn [scan].
    rewrite (read_entry_ext m1 m2 a) by (intros x Hx; apply E; lia).
    destruct ((4 <? e_type (read_entry m2 a)) || (e_len (read_entry m2 a) =? 0) || (e_type (read_entry m2 a) <? 1)); [reflexivity|].
    rewrite (IH (a + 20) _ m1 m2) by (intros x Hx; apply E; lia). reflexivity. }
  apply X. intros x Hx. unfold get_svga. apply store_outside. left. unfold e820_addr in Hx. lia.
Qed.
Lemma svga_overwrites_refuted : exists m info, read_entry (get_svga info m) (0x7E00 + 20 * 25) <> read_entry m (0x7E00 + 20 * 25).
Proof. exists (fun _ => 0), [0x56]. vm_compute. discriminate. Qed.

(** ** messages *)
Lemma printf16 lo hi : lo < 256 -> hi < 256 ->
  disasm 20 M16 (printf_code lo hi) =
    ([(0x89, [0xc1]); (0x89, [0xdd]); (0x8c, [0xd8]); (0x8e, [0xc0]); (0xb8, [0x01; 0x13]); (0xbb, [0x0f; 0x00]);
      (0x8b, [0x16; lo; hi]); (0xcd, [0x10]); (0x81, [0x06; lo; hi; 0x00; 0x02]); (0xc3, [])], []).
Proof. intros _ _. reflexivity. Qed.
Lemma printf32 lo hi : lo < 256 -> hi < 256 ->
  disasm 20 M32 (printf_code lo hi) =
    ([(0x89, [0xc1]); (0x89, [0xdd]); (0x8c, [0xd8]); (0x8e, [0xc0]); (0xb8, [0x01; 0x13; 0xbb; 0x0f]);
      (0x00, [0x8b; 0x16; lo; hi; 0xcd]); (0x10, [0x81; 0x06; lo; hi; 0x00]); (0x02, [0xc3])], []).
Proof. intros _ _. reflexivity. Qed.
Lemma messages16 lo hi : lo < 256 -> hi < 256 ->
  shows (fst (disasm 20 M16 (printf_code lo hi))) /\ returns (fst (disasm 20 M16 (printf_code lo hi))) /\ snd (disasm 20 M16 (printf_code lo hi)) = [].
Proof. intros H1 H2. rewrite printf16 by assumption. cbn. unfold shows, returns. cbn. tauto. Qed.
Lemma no_message32 lo hi : lo < 256 -> hi < 256 ->
  ~ shows (fst (disasm 20 M32 (printf_code lo hi))) /\ ~ returns (fst (disasm 20 M32 (printf_code lo hi))) /\ snd (disasm 20 M32 (printf_code lo hi)) = [].
Proof.
  intros H1 H2. rewrite printf32 by assumption. unfold shows, returns. cbn.
  split; [|split; [|reflexivity]]; intros H; repeat (destruct H as [H|H]; [discriminate H|]); exact H.
Qed.
(** The 32-bit code of Set_Svga_Mode_Failed run in 16-bit mode: the second instruction is swallowed by the first. *)
Lemma svga_failed16 lo hi r0 r1 r2 r3 fuel : exists is rest,
  disasm (S fuel) M16 (svga_failed_code lo hi r0 r1 r2 r3) = ((0xb8, [23; 0x00; 0x66; 0xbb]) :: is, rest) /\
  disasm fuel M16 [lo; hi; 0xe8; r0; r1; r2; r3; 0xeb; 0xfe] = (is, rest).
Proof.
  destruct (disasm fuel M16 [lo; hi; 0xe8; r0; r1; r2; r3; 0xeb; 0xfe]) as [is rest] eqn:E. exists is, rest. split; [|reflexivity].
  transitivity (let (is', r') := disasm fuel M16 [lo; hi; 0xe8; r0; r1; r2; r3; 0xeb; 0xfe] in
    ((0xb8, [23; 0x00; 0x66; 0xbb]) :: is', r')); [reflexivity|]. rewrite E. reflexivity.
Qed.
(** a processor state for the examples *)
Definition sse_before : regs := Regs 0 7 0 0 0x80010015 0x20.
Definition one_map : list e820_entry := [{| e_addr := 0; e_len := 0x9fc00; e_type := 1 |}; {| e_addr := 0x100000; e_len := 0x1ff00000; e_type := 1 |}].
Definition one_bios (k : N) : bool * list N * N :=
  if k =? 0 then (false, entry_bytes {| e_addr := 0; e_len := 0x9fc00; e_type := 1 |}, 24)
  else (false, entry_bytes {| e_addr := 0x100000; e_len := 0x1ff00000; e_type := 1 |}, 0).
Lemma one_lists : lists one_bios 0 one_map.
Proof. eapply lists_more; [reflexivity|discriminate|]. apply lists_last. reflexivity. Qed.
Definition carry_bios (k : N) : bool * list N * N :=
  if k =? 0 then (false, entry_bytes {| e_addr := 0; e_len := 0x9fc00; e_type := 1 |}, 24)
  else if k =? 24 then (false, entry_bytes {| e_addr := 0x100000; e_len := 0x1ff00000; e_type := 1 |}, 48)
  else (true, [], 0).
Lemma carry_lists : lists_carry carry_bios 0 one_map.
Proof. eapply carry_more; [reflexivity|discriminate|]. eapply carry_more; [reflexivity|discriminate|]. eapply carry_end. reflexivity. Qed.
Lemma carry_fails b es m fuel : lists_carry b 0 es -> (length es < fuel)%nat -> store_memory_map fuel b m = Ok None.
Proof. intros H Hf. apply (get_carry b 0 es); assumption. Qed.
Lemma one_map_ok : lists one_bios 0 one_map /\ lists_carry carry_bios 0 one_map /\ Forall entry_ok one_map /\ Forall entry_plain one_map /\
  ~ entry_plain (read_entry (fun _ => 0) (0x7E00 + 20 * N.of_nat (length one_map))).
Proof.
  split; [exact one_lists|]. split; [exact carry_lists|].
  split; [repeat constructor|]. split; [repeat constructor; vm_compute; discriminate|]. intros [_ H]. apply H. reflexivity.
Qed.
