(** loader.asm:85-103. *)
From stdpp Require Import list.
From Coq Require Import NArith Lia ZifyBool ZifyNat ZifyN.
From Verif Require Import E820Model FlatModel FlatSpec FlatProofs FlatCopy.
Local Open Scope N_scope.

Lemma low8_bit x v i : N.testbit (low8 x v) i = if i <? 8 then N.testbit v i else N.testbit x i.
Proof.
  unfold low8. destruct (N.ltb_spec i 8) as [H|H].
  - rewrite <- (N.mod_pow2_bits_low _ 8) by exact H. rewrite N.add_comm, N.mod_add by (cbn; lia). rewrite N.mod_mod by (cbn; lia).
    apply N.mod_pow2_bits_low, H.
  - replace i with (i - 8 + 8) by lia. rewrite <- !N.div_pow2_bits. rewrite N.div_add_l by (cbn; lia).
    rewrite (N.div_small (v mod 2 ^ 8)) by (apply N.mod_lt; cbn; lia). rewrite N.add_0_r. reflexivity.
Qed.
Lemma low8_mod x v i : i < 8 -> N.testbit (low8 x v mod 256) i = N.testbit v i.
Proof. intros H. change 256 with (2 ^ 8). rewrite N.mod_pow2_bits_low by exact H. rewrite low8_bit. replace (i <? 8) with true by lia. done. Qed.
Lemma back_to_real cr : N.testbit cr 0 = false -> low8 (N.lor cr 1) (N.land (N.lor cr 1) 0xFE) = cr.
Proof.
  intros H. apply N.bits_inj. intros i. rewrite low8_bit. destruct (N.ltb_spec i 8) as [L|L].
  - assert (C : i = 0 \/ i = 1 \/ i = 2 \/ i = 3 \/ i = 4 \/ i = 5 \/ i = 6 \/ i = 7) by lia.
    rewrite N.land_spec, N.lor_spec.
    destruct C as [->|[->|[->|[->|[->|[->|[->| ->]]]]]]]; try (rewrite H; reflexivity);
      match goal with |- context [N.testbit cr ?j] => destruct (N.testbit cr j); reflexivity end.
  - rewrite N.lor_spec. replace (N.testbit 1 i) with false; [apply orb_false_r|]. symmetry. apply N.bits_above_log2. cbn. lia.
Qed.
Lemma lies_sub m a n k bs : lies m a bs -> (n + k <= length bs)%nat -> load m (a + N.of_nat n) k = take k (drop n bs).
Proof.
  intros H L. pose proof H as H'. rewrite <- (take_drop n bs) in H'. rewrite <- (take_drop k (drop n bs)) in H'.
  apply lies_app in H' as [_ H']. apply lies_app in H' as [H' _]. unfold lies in H'. rewrite !take_length, drop_length in H'.
  rewrite !Nat.min_l in H' by lia. exact H'.
Qed.
Lemma gdt_base a : a < 2 ^ 32 -> le_val [a mod 256; a / 256 mod 256; a / 65536 mod 256; a / 16777216 mod 256] = a.
Proof.
  intros H. rewrite p32 in H. pose proof (le_val_bytes 4 a H) as E. cbn [le_bytes] in E. rewrite !N.div_div in E by lia. exact E.
Qed.

Section Open.
Context (g : N) (Hg : g + 30 <= 0x10000).
Context (m : N -> N) (gt : bool) (a c si di p dsel dl : N) (f : cache) (ssel sl cr gb gl : N) (it : bool) (p9 : N).
Context (Hr : N.testbit cr 0 = false) (Hd : 0xFFFF <= dl) (Hs : 0xFFFF <= sl) (Hp : 2 <= p <= 0x7C00).
Let s0 := Mach m gt a c si di p (Cache dsel 0x10000 dl) f (Cache ssel 0 sl) cr gb gl it p9.
Let m1 := wr gt m 2 (p - 2) (a mod 2 ^ 16).
Let al := low8 (low8 a p9) (N.lor (low8 a p9) 2).
Lemma al_bit0 : N.testbit al 0 = N.testbit p9 0.
Proof. unfold al. rewrite low8_bit. cbn [N.ltb N.compare]. rewrite N.lor_spec, low8_bit. cbn. apply orb_false_r. Qed.
Lemma al_bit1 : N.testbit (al mod 256) 1 = true.
Proof. unfold al. rewrite low8_mod by lia. rewrite N.lor_spec. cbn. apply orb_true_r. Qed.

Lemma open_reset : N.testbit p9 0 = true -> run (open_flat g) s0 = Off Reset.
Proof.
  intros H. unfold open_flat, s0. cbn [run exec]. push1. fold al. rewrite al_bit0, H. reflexivity.
Qed.
Lemma open_ok : N.testbit p9 0 = false -> lies m (0x10000 + g) (gdt_bytes (0x10000 + g)) ->
  run (open_flat g) s0 =
  On (Mach (wr true m1 1 (0x10000 + g + 21) 0x93) true cr c si di p (Cache dsel 0x10000 dl) (Cache 16 0 0xFFFFFFFF) (Cache ssel 0 sl)
        cr (0x10000 + g) 23 true (al mod 256)).
Proof.
  intros H L. unfold open_flat, s0. cbn [run exec]. push1. fold al. rewrite al_bit0, H. cbn [sbind].
  unfold set_92. rewrite al_bit1. proj. change (N.of_nat 2) with 2. fold m1.
  rewrite pop_ok by (proj; change (N.of_nat 2) with 2; lia). proj. change (N.of_nat 2) with 2. replace (p - 2 + 2) with p by lia.
  assert (L1 : lies m1 (0x10000 + g) (gdt_bytes (0x10000 + g))).
  { apply (lies_ext m); [|done]. intros x Hx. unfold m1. apply wr_other; [destruct gt; cbn; lia|]. lia. }
  unfold fetch, lin. proj. change (N.of_nat 2) with 2. change (N.of_nat 4) with 4.
  replace (g + 24 + 2 - 1 <=? dl) with true by lia. proj.
  replace (g + 24 + 2 + 4 - 1 <=? dl) with true by lia. proj.
  assert (E2 : rd true m1 2 (0x10000 + (g + 24)) = 23).
  { rewrite rd_load by (cbn; lia). replace (0x10000 + (g + 24)) with (0x10000 + g + N.of_nat 24) by lia.
    rewrite (lies_sub _ _ _ _ _ L1) by (cbn; lia). reflexivity. }
  assert (E4 : rd true m1 4 (0x10000 + (g + 24 + 2)) = 0x10000 + g).
  { rewrite rd_load by (cbn; lia). replace (0x10000 + (g + 24 + 2)) with (0x10000 + g + N.of_nat 26) by lia.
    rewrite (lies_sub _ _ _ _ _ L1) by (cbn; lia). unfold gdt_bytes. cbn [take drop]. apply gdt_base. rewrite p32. lia. }
  rewrite E2, E4. proj.
  unfold load_seg. proj.
  assert (B0 : N.testbit (N.lor cr 1) 0 = true) by (rewrite N.lor_spec; apply orb_true_r).
  rewrite B0. cbn [negb]. rewrite low16_mod. change (16 mod 2 ^ 16) with 16.
  change (16 / 8) with 2. change (8 * 2) with 16. change (negb (4 <=? 16) || N.testbit 16 2 || negb (16 + 7 <=? 23)) with false. cbv iota.
  assert (E8 : rd true m1 8 (0x10000 + g + 16) = 0x00CF92000000FFFF).
  { rewrite rd_load by (cbn; lia). change 16 with (N.of_nat 16) at 1. rewrite (lies_sub _ _ _ _ _ L1) by (cbn; lia). reflexivity. }
  rewrite E8.
  match goal with |- context [if ?b then On _ else _] => change b with true end. cbv iota. cbn [sbind].
  match goal with |- context [N.lor (?x mod 256) 1] => change (N.lor (x mod 256) 1) with 0x93 end.
  match goal with |- context [Cache 16 ?b ?l] => change b with 0; change l with 0xFFFFFFFF end.
  replace (0x10000 + g + 16 + 5) with (0x10000 + g + 21) by lia. proj.
  rewrite (back_to_real cr Hr). reflexivity.
Qed.
End Open.

Lemma flat_opened g s : in_loader 2 s -> g + 30 <= 0x10000 -> lies (ram s) (0x10000 + g) (gdt_bytes (0x10000 + g)) ->
  (run (open_flat g) s = Off Reset <-> N.testbit (p92 s) 0 = true) /\
  (N.testbit (p92 s) 0 = false ->
   exists s', run (open_flat g) s = On s' /\ flat s' /\ fs s' = Cache 16 0 0xFFFFFFFF /\ (18 <= sp s -> in_loader 18 s') /\
     cr0 s' = cr0 s /\ ecx s' = ecx s /\ esi s' = esi s /\ edi s' = edi s /\ sp s' = sp s /\ ds s' = ds s /\ ss s' = ss s /\
     gbase s' = 0x10000 + g /\ glimit s' = 23 /\ intr s' = true /\
     (forall x, ~ (sp s - 2 <= x < sp s) -> x <> 0x10000 + g + 21 -> ram s' x = ram s x) /\ ram s' (0x10000 + g + 21) = 0x93).
Proof.
  destruct s as [m gt a c si di p [dsel db dl] f [ssel sb sl] cr gb gl it p9]. unfold in_loader, flat.
  cbn [ecx ram gate eax esi edi sp ds fs ss cr0 gbase glimit intr p92 c_sel c_base c_limit].
  intros (Hcr & Hr & -> & -> & Hd & -> & Hs & Hp & Ha & Hc & Hsi & Hdi & Hf & B) Hg L.
  split.
  - split; [|intros H; apply open_reset; done]. intros E. destruct (N.testbit p9 0) eqn:E0; [done|].
    rewrite open_ok in E by done. done.
  - intros H. eexists. split; [apply open_ok; done|].
    cbn [ecx ram gate eax esi edi sp ds fs ss cr0 gbase glimit intr p92 c_sel c_base c_limit].
    assert (W : forall n g m a v y, (forall y, m y < 256) -> wr g m n a v y < 256).
    { clear. induction n as [|n IH]; intros g m a v y B; [apply B|]. cbn [wr]. apply IH. intros z. destruct (z =? line g a); [|apply B].
      apply N.mod_lt. lia. }
    split_and!; try done.
    + intros Hp'. split_and!; try done; try lia. intros x. repeat (apply W; intros ?). apply B.
    + intros x H1 H2. rewrite wr_other by (cbn; lia). apply wr_other; [destruct gt; cbn; lia|cbn; lia].
    + cbn [wr]. rewrite line_open by lia. rewrite N.eqb_refl. reflexivity.
Qed.
