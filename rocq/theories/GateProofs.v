(** Proofs about the interrupt tables. *)
From stdpp Require Import gmap list.
From Coq Require Import NArith Lia ZifyBool ZifyNat ZifyN.
From Verif Require Import Base GateModel GateSpec.
Local Open Scope N_scope.
Local Ltac Zify.zify_post_hook ::= Z.div_mod_to_equations.

(** ** Decoding of gates *)
Lemma field_mid a b c lo len :
  a < 2 ^ lo -> b < 2 ^ len -> field (a + b * 2 ^ lo + c * 2 ^ (lo + len)) lo len = b.
Proof.
  intros Ha Hb. unfold field. rewrite N.pow_add_r.
  replace (a + b * 2 ^ lo + c * (2 ^ lo * 2 ^ len)) with (a + (b + c * 2 ^ len) * 2 ^ lo) by lia.
  rewrite N.div_add by (apply N.pow_nonzero; lia).
  rewrite N.div_small by exact Ha. rewrite N.add_0_l, N.mod_add by (apply N.pow_nonzero; lia).
  apply N.mod_small, Hb.
Qed.

Lemma field_eq x lo len a b c :
  x = a + b * 2 ^ lo + c * 2 ^ (lo + len) -> a < 2 ^ lo -> b < 2 ^ len -> field x lo len = b.
Proof. intros ->. apply field_mid. Qed.

Lemma decode_set_gate h sel ty dpl p :
  h < 2 ^ 64 -> sel < 2 ^ 16 -> ty < 2 ^ 4 -> dpl < 2 ^ 2 -> p < 2 ->
  decode_gate (gate_bits (set_gate h sel ty 0 dpl p)) =
  {| d_offset := h; d_selector := sel; d_ist := 0; d_type := ty; d_dpl := dpl; d_present := p |}.
Proof.
  intros Hh Hs Ht Hd Hp. unfold gate_bits, set_gate.
  cbn [low_offset selector zero f_type f_zero f_dpl f_present middle_offset high_offset reserved].
  change 0xFFFF with (N.ones 16). rewrite !N.land_ones, !N.shiftr_div_pow2.
  rewrite (N.mod_small sel) by lia. rewrite (N.mod_small ty) by lia. rewrite (N.mod_small dpl) by lia.
  rewrite (N.mod_small p) by lia. change (0 mod 2) with 0.
  rewrite (N.mod_small (h / 2 ^ 32)) by (apply N.div_lt_upper_bound; [lia|exact Hh]).
  assert (Hlo : h mod 2 ^ 16 < 2 ^ 16) by (apply N.mod_lt; lia).
  assert (Hmi : h / 2 ^ 16 mod 2 ^ 16 < 2 ^ 16) by (apply N.mod_lt; lia).
  assert (Hhi : h / 2 ^ 32 < 2 ^ 32) by (apply N.div_lt_upper_bound; [lia|exact Hh]).
  assert (Hsum : h = h mod 2 ^ 16 + h / 2 ^ 16 mod 2 ^ 16 * 2 ^ 16 + h / 2 ^ 32 * 2 ^ 32).
  { pose proof (N.div_mod h (2 ^ 16) ltac:(lia)) as E1.
    pose proof (N.div_mod (h / 2 ^ 16) (2 ^ 16) ltac:(lia)) as E2.
    rewrite N.div_div in E2 by lia. change (2 ^ 16 * 2 ^ 16) with (2 ^ 32) in E2.
    change (2 ^ 32) with (2 ^ 16 * 2 ^ 16) at 2. nia. }
  set (lo := h mod 2 ^ 16) in *. set (mi := h / 2 ^ 16 mod 2 ^ 16) in *. set (hi := h / 2 ^ 32) in *.
  clearbody lo mi hi.
  set (x := lo + sel * 2 ^ 16 + 0 * 2 ^ 32 + (ty + 0 * 2 ^ 4 + dpl * 2 ^ 5 + p * 2 ^ 7) * 2 ^ 40 +
            mi * 2 ^ 48 + hi * 2 ^ 64 + 0 * 2 ^ 96).
  assert (Hx : x = lo + sel * 65536 + ty * 1099511627776 + dpl * 35184372088832 + p * 140737488355328 +
     mi * 281474976710656 + hi * 18446744073709551616) by (unfold x; lia).
  clearbody x. unfold decode_gate.
  assert (F1 : field x 0 16 = lo).
  { apply (field_eq x 0 16 0 lo (sel + ty * 16777216 + dpl * 536870912 + p * 2147483648 +
       mi * 4294967296 + hi * 281474976710656)); lia. }
  assert (F2 : field x 16 16 = sel).
  { apply (field_eq x 16 16 lo sel (ty * 256 + dpl * 8192 + p * 32768 + mi * 65536 + hi * 4294967296)); lia. }
  assert (F3 : field x 32 3 = 0).
  { apply (field_eq x 32 3 (lo + sel * 65536) 0 (ty * 32 + dpl * 1024 + p * 4096 + mi * 8192 + hi * 536870912)); lia. }
  assert (F4 : field x 40 5 = ty).
  { apply (field_eq x 40 5 (lo + sel * 65536) ty (dpl + p * 4 + mi * 8 + hi * 524288)); lia. }
  assert (F5 : field x 45 2 = dpl).
  { apply (field_eq x 45 2 (lo + sel * 65536 + ty * 1099511627776) dpl (p + mi * 2 + hi * 131072)); lia. }
  assert (F6 : field x 47 1 = p).
  { apply (field_eq x 47 1 (lo + sel * 65536 + ty * 1099511627776 + dpl * 35184372088832) p (mi + hi * 65536)); lia. }
  assert (F7 : field x 48 16 = mi).
  { apply (field_eq x 48 16 (lo + sel * 65536 + ty * 1099511627776 + dpl * 35184372088832 + p * 140737488355328)
      mi hi); lia. }
  assert (F8 : field x 64 32 = hi).
  { apply (field_eq x 64 32 (lo + sel * 65536 + ty * 1099511627776 + dpl * 35184372088832 + p * 140737488355328 +
      mi * 281474976710656) hi 0); lia. }
  rewrite F1, F2, F3, F4, F5, F6, F7, F8, <- Hsum. reflexivity.
Qed.

(** The table, with the gates abstract. *)
Definition table (a b c old : N -> gate) : list gate :=
  write_gates
   (map (fun n => (n, a n))
    [0; 1; 2; 3; 4; 5; 6; 7; 8; 9; 10; 11; 12; 13; 14; 15; 16; 17; 18; 19; 20; 21; 22; 23; 24; 25;
     26; 27; 28; 29; 30; 31] ++
    map (fun n => (32 + n, b n)) [0; 1; 2; 3; 4; 5; 6; 7; 8; 9; 10; 11; 12; 13; 14; 15] ++
    map (fun n => (50 + n, c n)) [0; 1; 2; 3; 4; 5; 6; 7; 8; 9]) (map (fun k => old (N.of_nat k)) (seq 0 256)).
Definition entry (a b c old : N -> gate) (v : N) : gate :=
  if v <? 32 then a v else if v <? 48 then b (v - 32) else
  if v <? 50 then old v else if v <? 60 then c (v - 50) else old v.
Lemma table_all a b c old : table a b c old = map (fun k => entry a b c old (N.of_nat k)) (seq 0 256).
Proof. vm_compute. reflexivity. Qed.
Lemma table_lookup a b c old v : v < 256 -> table a b c old !! N.to_nat v = Some (entry a b c old v).
Proof.
  intros Hv. rewrite table_all. rewrite list_lookup_fmap.
  rewrite lookup_seq_lt by lia. cbn [fmap option_fmap option_map]. f_equal. f_equal. lia.
Qed.

Lemma idt_gates isr irq sys old v :
  (forall n, isr n < 2 ^ 64) -> (forall n, irq n < 2 ^ 64) -> (forall n, sys n < 2 ^ 64) ->
  v < 256 ->
  exists g, idt_after_init isr irq sys old !! N.to_nat v = Some g /\
  (v < 32 -> decode_gate (gate_bits g) = kernel_gate (isr v) 0) /\
  (32 <= v < 48 -> decode_gate (gate_bits g) = kernel_gate (irq (v - 32)) 0) /\
  (50 <= v < 60 -> decode_gate (gate_bits g) = kernel_gate (sys (v - 50)) 3) /\
  (v = 48 \/ v = 49 \/ 60 <= v -> g = old v).
Proof.
  intros H1 H2 H3 Hv. eexists. split.
  { exact (table_lookup (fun n => set_gate (isr n) 8 14 0 0 1) (fun n => set_gate (irq n) 8 14 0 0 1)
      (fun n => set_gate (sys n) 8 14 0 3 1) old v Hv). }
  unfold entry.
  destruct (N.ltb_spec v 32).
  { split; [intros _; apply decode_set_gate; [apply H1|lia..]|]. split; [lia|]. split; [lia|]. lia. }
  destruct (N.ltb_spec v 48).
  { split; [lia|]. split; [intros _; apply decode_set_gate; [apply H2|lia..]|]. split; lia. }
  destruct (N.ltb_spec v 50).
  { split; [lia|]. split; [lia|]. split; [lia|]. intros _. reflexivity. }
  destruct (N.ltb_spec v 60).
  { split; [lia|]. split; [lia|]. split; [|lia]. intros _. apply decode_set_gate; [apply H3|lia..]. }
  split; [lia|]. split; [lia|]. split; [lia|]. intros _. reflexivity.
Qed.

Lemma idt_zeroed isr irq sys v : v < 256 -> v = 48 \/ v = 49 \/ 60 <= v ->
  exists g, idt_after_init isr irq sys (fun _ => gate0) !! N.to_nat v = Some g /\ d_present (decode_gate (gate_bits g)) = 0.
Proof.
  intros Hv Hc. eexists. split.
  { exact (table_lookup (fun n => set_gate (isr n) 8 14 0 0 1) (fun n => set_gate (irq n) 8 14 0 0 1)
      (fun n => set_gate (sys n) 8 14 0 3 1) (fun _ => gate0) v Hv). }
  unfold entry. destruct (N.ltb_spec v 32); [lia|]. destruct (N.ltb_spec v 48); [lia|].
  destruct (N.ltb_spec v 50); [reflexivity|]. destruct (N.ltb_spec v 60); [lia|]. reflexivity.
Qed.
Lemma idt_left isr irq sys v h : h < 2 ^ 64 -> v < 256 -> v = 48 \/ v = 49 \/ 60 <= v ->
  exists old g, idt_after_init isr irq sys old !! N.to_nat v = Some g /\ decode_gate (gate_bits g) = kernel_gate h 3.
Proof.
  intros Hh Hv Hc. exists (fun _ => set_gate h 8 14 0 3 1). eexists. split.
  { exact (table_lookup (fun n => set_gate (isr n) 8 14 0 0 1) (fun n => set_gate (irq n) 8 14 0 0 1)
      (fun n => set_gate (sys n) 8 14 0 3 1) (fun _ => set_gate h 8 14 0 3 1) v Hv). }
  unfold entry. destruct (N.ltb_spec v 32); [lia|]. destruct (N.ltb_spec v 48); [lia|].
  destruct (N.ltb_spec v 50); [apply decode_set_gate; lia|]. destruct (N.ltb_spec v 60); [lia|]. apply decode_set_gate; lia.
Qed.

(** ** Registration *)
Definition irq_rel (t : irq_table) (σ : gmap N (N * N)) : Prop :=
  length t = 16%nat /\
  forall l, match t !! N.to_nat l with
            | Some (h, d) => σ !! l = if h =? 0 then None else Some (h, d)
            | None => σ !! l = None
            end.
Definition sys_rel (t : list N) (σ : gmap N (N * N)) : Prop :=
  length t = 10%nat /\
  forall l, match t !! N.to_nat l with
            | Some h => σ !! l = if h =? 0 then None else Some (h, 0)
            | None => σ !! l = None
            end.

Lemma lookup_to_nat_insert {A} (t : list A) l l' x :
  (N.to_nat l < length t)%nat ->
  <[N.to_nat l := x]> t !! N.to_nat l' = if decide (l = l') then Some x else t !! N.to_nat l'.
Proof.
  intros Hl. case_decide as E; [subst; apply list_lookup_insert, Hl|].
  apply list_lookup_insert_ne. lia.
Qed.

Lemma irq_step_refines t σ o :
  irq_rel t σ -> op_nonnull o ->
  exists σ' b, reg_spec (fun l => l <? 16) σ o = (σ', b) /\ snd (irq_step t o) = b /\ irq_rel (fst (irq_step t o)) σ'.
Proof.
  intros [Hlen Hrel] Hnn. destruct o as [l h d|l h]; cbn [op_nonnull] in Hnn.
  - cbn [irq_step reg_spec]. unfold register_irq. pose proof (Hrel l) as Hl.
    destruct (t !! N.to_nat l) as [[h0 d0]|] eqn:E.
    + apply lookup_lt_Some in E as Hlt. replace (l <? 16) with true by lia. rewrite Hl.
      destruct (N.eqb_spec h0 0); cbn [negb].
      * do 2 eexists. split; [reflexivity|]. split; [reflexivity|].
        split; [cbn [fst]; rewrite insert_length; exact Hlen|]. intros l'. cbn [fst].
        rewrite lookup_to_nat_insert by exact Hlt. case_decide as El.
        -- subst l'. rewrite lookup_insert. destruct (N.eqb_spec h 0); [contradiction|reflexivity].
        -- rewrite lookup_insert_ne by exact El. apply Hrel.
      * do 2 eexists. split; [reflexivity|]. split; [reflexivity|]. split; assumption.
    + apply lookup_ge_None in E. replace (l <? 16) with false by lia.
      do 2 eexists. split; [reflexivity|]. split; [reflexivity|]. split; assumption.
  - cbn [irq_step reg_spec]. unfold unregister_irq. pose proof (Hrel l) as Hl.
    destruct (t !! N.to_nat l) as [[h0 d0]|] eqn:E.
    + apply lookup_lt_Some in E as Hlt. rewrite Hl.
      destruct (N.eqb_spec h0 0) as [->|H0].
      * replace (0 =? h) with false by lia. cbn [negb].
        do 2 eexists. split; [reflexivity|]. split; [reflexivity|]. split; assumption.
      * destruct (N.eqb_spec h0 h); cbn [negb].
        -- do 2 eexists. split; [reflexivity|]. split; [reflexivity|].
           split; [cbn [fst]; rewrite insert_length; exact Hlen|]. intros l'. cbn [fst].
           rewrite lookup_to_nat_insert by exact Hlt. case_decide as El.
           ++ subst l'. rewrite lookup_delete. reflexivity.
           ++ rewrite lookup_delete_ne by exact El. apply Hrel.
        -- do 2 eexists. split; [reflexivity|]. split; [reflexivity|]. split; assumption.
    + rewrite Hl. do 2 eexists. split; [reflexivity|]. split; [reflexivity|]. split; assumption.
Qed.

Lemma sys_step_refines t σ o :
  sys_rel t σ -> op_nonnull o ->
  exists σ' b, reg_spec (fun l => l <? 10) σ (drop_data o) = (σ', b) /\
               snd (sys_step t o) = b /\ sys_rel (fst (sys_step t o)) σ'.
Proof.
  intros [Hlen Hrel] Hnn. destruct o as [l h d|l h]; cbn [op_nonnull] in Hnn.
  - cbn [sys_step reg_spec drop_data]. unfold register_syscall. pose proof (Hrel l) as Hl.
    destruct (t !! N.to_nat l) as [h0|] eqn:E.
    + apply lookup_lt_Some in E as Hlt. replace (l <? 10) with true by lia. rewrite Hl.
      destruct (N.eqb_spec h0 0); cbn [negb].
      * do 2 eexists. split; [reflexivity|]. split; [reflexivity|].
        split; [cbn [fst]; rewrite insert_length; exact Hlen|]. intros l'. cbn [fst].
        rewrite lookup_to_nat_insert by exact Hlt. case_decide as El.
        -- subst l'. rewrite lookup_insert. destruct (N.eqb_spec h 0); [contradiction|reflexivity].
        -- rewrite lookup_insert_ne by exact El. apply Hrel.
      * do 2 eexists. split; [reflexivity|]. split; [reflexivity|]. split; assumption.
    + apply lookup_ge_None in E. replace (l <? 10) with false by lia.
      do 2 eexists. split; [reflexivity|]. split; [reflexivity|]. split; assumption.
  - cbn [sys_step reg_spec drop_data]. unfold unregister_syscall. pose proof (Hrel l) as Hl.
    destruct (t !! N.to_nat l) as [h0|] eqn:E.
    + apply lookup_lt_Some in E as Hlt. rewrite Hl.
      destruct (N.eqb_spec h0 0) as [->|H0].
      * replace (0 =? h) with false by lia. cbn [negb].
        do 2 eexists. split; [reflexivity|]. split; [reflexivity|]. split; assumption.
      * destruct (N.eqb_spec h0 h); cbn [negb].
        -- do 2 eexists. split; [reflexivity|]. split; [reflexivity|].
           split; [cbn [fst]; rewrite insert_length; exact Hlen|]. intros l'. cbn [fst].
           rewrite lookup_to_nat_insert by exact Hlt. case_decide as El.
           ++ subst l'. rewrite lookup_delete. reflexivity.
           ++ rewrite lookup_delete_ne by exact El. apply Hrel.
        -- do 2 eexists. split; [reflexivity|]. split; [reflexivity|]. split; assumption.
    + rewrite Hl. do 2 eexists. split; [reflexivity|]. split; [reflexivity|]. split; assumption.
Qed.

Lemma irq_run_refines os : forall t σ,
  irq_rel t σ -> Forall op_nonnull os ->
  let '(σ', bs) := reg_spec_run (fun l => l <? 16) σ os in
  snd (irq_run t os) = bs /\ irq_rel (fst (irq_run t os)) σ'.
Proof.
  induction os as [|o os IH]; intros t σ Hr Ho.
  - cbn. split; [reflexivity|exact Hr].
  - inversion Ho as [|? ? Ho1 Ho2]; subst.
    destruct (irq_step_refines t σ o Hr Ho1) as (σ1 & b & E1 & E2 & E3).
    cbn [reg_spec_run irq_run]. rewrite E1.
    specialize (IH (fst (irq_step t o)) σ1 E3 Ho2).
    destruct (reg_spec_run _ σ1 os) as [σ2 bs].
    destruct (irq_step t o) as [t1 b1]. cbn [fst snd] in *.
    destruct (irq_run t1 os) as [t2 bs2]. cbn [fst snd] in *.
    destruct IH as [-> IH]. rewrite E2. split; [reflexivity|exact IH].
Qed.

Lemma sys_run_refines os : forall t σ,
  sys_rel t σ -> Forall op_nonnull os ->
  let '(σ', bs) := reg_spec_run (fun l => l <? 10) σ (map drop_data os) in
  snd (sys_run t os) = bs /\ sys_rel (fst (sys_run t os)) σ'.
Proof.
  induction os as [|o os IH]; intros t σ Hr Ho.
  - cbn. split; [reflexivity|exact Hr].
  - inversion Ho as [|? ? Ho1 Ho2]; subst.
    destruct (sys_step_refines t σ o Hr Ho1) as (σ1 & b & E1 & E2 & E3).
    cbn [reg_spec_run sys_run map]. rewrite E1.
    specialize (IH (fst (sys_step t o)) σ1 E3 Ho2).
    destruct (reg_spec_run _ σ1 (map drop_data os)) as [σ2 bs].
    destruct (sys_step t o) as [t1 b1]. cbn [fst snd] in *.
    destruct (sys_run t1 os) as [t2 bs2]. cbn [fst snd] in *.
    destruct IH as [-> IH]. rewrite E2. split; [reflexivity|exact IH].
Qed.

Lemma irq_rel_init : irq_rel irqs_init ∅.
Proof.
  split; [reflexivity|]. intros l. unfold irqs_init.
  destruct (replicate 16 (0, 0) !! N.to_nat l) as [[h d]|] eqn:E; [|apply lookup_empty].
  apply lookup_replicate in E as [E _]. injection E as -> ->. cbn. apply lookup_empty.
Qed.
Lemma sys_rel_init : sys_rel syscalls_init ∅.
Proof.
  split; [reflexivity|]. intros l. unfold syscalls_init.
  destruct (replicate 10 0 !! N.to_nat l) as [h|] eqn:E; [|apply lookup_empty].
  apply lookup_replicate in E as [-> _]. cbn. apply lookup_empty.
Qed.

Lemma irq_dispatch t σ n : irq_rel t σ -> n < 16 -> trigger_irq t n = Ok (σ !! n).
Proof.
  intros [Hlen Hrel] Hn. unfold trigger_irq. specialize (Hrel n).
  destruct (t !! N.to_nat n) as [[h d]|] eqn:E; [|apply lookup_ge_None in E; lia].
  rewrite Hrel. destruct (h =? 0); reflexivity.
Qed.
Lemma sys_dispatch t σ n : sys_rel t σ -> n < 10 -> trigger_syscall t n = Ok (fst <$> σ !! n).
Proof.
  intros [Hlen Hrel] Hn. unfold trigger_syscall. specialize (Hrel n).
  destruct (t !! N.to_nat n) as [h|] eqn:E; [|apply lookup_ge_None in E; lia].
  rewrite Hrel. destruct (h =? 0); reflexivity.
Qed.

Lemma irq_history os :
  Forall op_nonnull os ->
  let '(t, results) := irq_run irqs_init os in
  let '(σ, expected) := reg_spec_run (fun l => l <? 16) ∅ os in
  results = expected /\ forall n, n < 16 -> trigger_irq t n = Ok (σ !! n).
Proof.
  intros Ho. pose proof (irq_run_refines os irqs_init ∅ irq_rel_init Ho) as H.
  destruct (irq_run irqs_init os) as [t r]. destruct (reg_spec_run _ ∅ os) as [σ e].
  cbn [fst snd] in H. destruct H as [-> H]. split; [reflexivity|]. intros n Hn. apply irq_dispatch; assumption.
Qed.
Lemma sys_history os :
  Forall op_nonnull os ->
  let '(t, results) := sys_run syscalls_init os in
  let '(σ, expected) := reg_spec_run (fun l => l <? 10) ∅ (map drop_data os) in
  results = expected /\ forall n, n < 10 -> trigger_syscall t n = Ok (fst <$> σ !! n).
Proof.
  intros Ho. pose proof (sys_run_refines os syscalls_init ∅ sys_rel_init Ho) as H.
  destruct (sys_run syscalls_init os) as [t r]. destruct (reg_spec_run _ ∅ (map drop_data os)) as [σ e].
  cbn [fst snd] in H. destruct H as [-> H]. split; [reflexivity|]. intros n Hn. apply sys_dispatch; assumption.
Qed.

(** ** Interrupt controllers *)
Lemma remap_result s :
  remap_irqs s =
  {| master := {| p_icw := 0; p_base := 0x20; p_cascade := 4; p_mode := 1; p_mask := 0; p_isr := 0 |};
     slave := {| p_icw := 0; p_base := 0x28; p_cascade := 2; p_mode := 1; p_mask := 0; p_isr := 0 |} |}.
Proof. reflexivity. Qed.

(** Clearing the lowest set bit. *)
Lemma lowest_bit_off_spec x n :
  (forall i, N.testbit x i = true -> n < i) ->
  lowest_bit_off (N.lor x (2 ^ n)) = x.
Proof.
  intros H.
  assert (Hx : exists y, x = y * 2 ^ (n + 1)).
  { exists (x / 2 ^ (n + 1)). 
    apply N.bits_inj. intros i. rewrite <- N.shiftr_div_pow2, <- N.shiftl_mul_pow2.
    destruct (N.le_gt_cases (n + 1) i) as [Hi|Hi].
    - rewrite N.shiftl_spec_high by lia. rewrite N.shiftr_spec by lia. f_equal. lia.
    - rewrite N.shiftl_spec_low by lia. destruct (N.testbit x i) eqn:E; [|reflexivity].
      specialize (H i E). lia. }
  destruct Hx as [y ->]. clear H. rewrite N.pow_add_r.
  assert (Hor : N.lor (y * (2 ^ n * 2 ^ 1)) (2 ^ n) = (2 * y + 1) * 2 ^ n).
  { replace (y * (2 ^ n * 2 ^ 1)) with (2 * y * 2 ^ n) by lia.
    rewrite <- (N.mul_1_l (2 ^ n)) at 2. rewrite <- !N.shiftl_mul_pow2, <- N.shiftl_lor.
    f_equal. destruct y; reflexivity. }
  rewrite Hor. unfold lowest_bit_off.
  assert (Hp : 2 ^ n <> 0) by (apply N.pow_nonzero; lia).
  replace ((2 * y + 1) * 2 ^ n - 1) with (2 * y * 2 ^ n + (2 ^ n - 1)) by nia.
  replace (y * (2 ^ n * 2 ^ 1)) with (2 * y * 2 ^ n) by lia.
  apply N.bits_inj. intros i. rewrite N.land_spec.
  replace (2 ^ n - 1) with (N.ones n) by (rewrite N.ones_equiv; lia).
  assert (Hadd : 2 * y * 2 ^ n + N.ones n = N.lor (2 * y * 2 ^ n) (N.ones n)).
  { rewrite <- N.lxor_lor, <- N.add_nocarry_lxor; [reflexivity| |];
      (apply N.bits_inj; intros j; rewrite N.land_spec, N.bits_0, <- N.shiftl_mul_pow2;
       destruct (N.le_gt_cases n j); [rewrite N.ones_spec_high by lia; apply andb_false_r|
       rewrite N.shiftl_spec_low by lia; reflexivity]). }
  rewrite Hadd, N.lor_spec, <- !N.shiftl_mul_pow2.
  destruct (N.le_gt_cases n i) as [Hi|Hi].
  - rewrite N.ones_spec_high by lia. rewrite orb_false_r. rewrite !N.shiftl_spec_high by lia.
    destruct (N.eq_dec i n) as [->|Hne].
    + rewrite N.sub_diag. rewrite N.testbit_even_0. apply andb_false_r.
    + replace (i - n) with (N.succ (N.pred (i - n))) by lia.
      rewrite N.testbit_odd_succ, N.testbit_even_succ by lia. apply andb_diag.
  - rewrite N.ones_spec_low by lia. rewrite !N.shiftl_spec_low by lia. reflexivity.
Qed.

Lemma pic_eta c : {| p_icw := p_icw c; p_base := p_base c; p_cascade := p_cascade c; p_mode := p_mode c;
  p_mask := p_mask c; p_isr := p_isr c |} = c.
Proof. destruct c. reflexivity. Qed.

Lemma eoi_command c n :
  (forall i, N.testbit (p_isr c) i = true -> n < i) ->
  pic_command 0x20 {| p_icw := p_icw c; p_base := p_base c; p_cascade := p_cascade c; p_mode := p_mode c;
    p_mask := p_mask c; p_isr := N.lor (p_isr c) (2 ^ n) |} = c.
Proof.
  intros H. unfold pic_command. change (N.testbit 0x20 4) with false. change (0x20 =? 0x20) with true. cbv iota.
  cbn [p_icw p_base p_cascade p_mode p_mask p_isr]. rewrite lowest_bit_off_spec by exact H. apply pic_eta.
Qed.

Lemma eoi_restores n s : n < 16 -> can_deliver n s -> send_eoi n (fst (pic_ack n s)) = s.
Proof.
  intros Hn Hc. destruct s as [m sl]. unfold can_deliver in Hc. cbn [master slave] in Hc.
  unfold send_eoi, eoi_writes, pic_ack.
  destruct (N.ltb_spec n 8).
  - replace (8 <=? n) with false by lia.
    cbn [app out_bytes fold_left fst snd out_byte N.eqb Pos.eqb master slave].
    rewrite eoi_command by exact Hc. reflexivity.
  - replace (8 <=? n) with true by lia. destruct Hc as [Hc1 Hc2].
    cbn [app out_bytes fold_left fst snd out_byte N.eqb Pos.eqb master slave].
    rewrite (eoi_command m 2) by exact Hc1. rewrite (eoi_command sl) by exact Hc2. reflexivity.
Qed.

Lemma ack_vector n s0 s :
  n < 16 -> p_base (master s) = p_base (master (remap_irqs s0)) ->
  p_base (slave s) = p_base (slave (remap_irqs s0)) -> snd (pic_ack n s) = 32 + n.
Proof.
  intros Hn Hm Hs. rewrite remap_result in Hm, Hs. cbn [master slave p_base] in Hm, Hs. unfold pic_ack.
  destruct (N.ltb_spec n 8); cbn [snd]; rewrite ?Hm, ?Hs; lia.
Qed.

Lemma eoi_slave n : In (0xA0, 0x20) (eoi_writes n) <-> 8 <= n.
Proof.
  unfold eoi_writes. destruct (N.leb_spec 8 n); cbn; split; intros H1; try lia; auto.
  destruct H1 as [H1|[]]. discriminate.
Qed.
Lemma eoi_master n : In (0x20, 0x20) (eoi_writes n).
Proof. unfold eoi_writes. apply in_or_app. right. left. reflexivity. Qed.

(** ** IrqGuard *)
Lemma guard_restores fl body : fst (run_stmt fl (SGuard body)) = fl.
Proof. cbn [run_stmt]. destruct (run_stmt (N.clearbit fl IF_bit) body). reflexivity. Qed.

Lemma disabled_stays s : forall fl, enabled fl = false -> no_enable s = true ->
  enabled (fst (run_stmt fl s)) = false /\ Forall (fun f => enabled f = false) (snd (run_stmt fl s)).
Proof.
  induction s as [|a IHa b IHb|body IH| |]; intros fl Hf Hn; cbn [no_enable] in Hn.
  - cbn. split; [exact Hf|]. constructor; [exact Hf|constructor].
  - apply andb_true_iff in Hn as [Hna Hnb]. cbn [run_stmt].
    destruct (IHa fl Hf Hna) as [A1 A2]. destruct (run_stmt fl a) as [f1 t1]. cbn [fst snd] in *.
    destruct (IHb f1 A1 Hnb) as [B1 B2]. destruct (run_stmt f1 b) as [f2 t2]. cbn [fst snd] in *.
    split; [exact B1|]. apply Forall_app. split; assumption.
  - cbn [run_stmt]. assert (Hc : enabled (N.clearbit fl IF_bit) = false) by apply N.clearbit_eq.
    destruct (IH _ Hc Hn) as [A1 A2]. destruct (run_stmt (N.clearbit fl IF_bit) body) as [f t].
    cbn [fst snd] in *. split; [exact Hf|exact A2].
  - discriminate.
  - cbn. split; [apply N.clearbit_eq|constructor].
Qed.

Lemma guard_disables fl body :
  no_enable body = true -> Forall (fun f => enabled f = false) (snd (run_stmt fl (SGuard body))).
Proof.
  intros Hn. cbn [run_stmt].
  destruct (disabled_stays body (N.clearbit fl IF_bit) (N.clearbit_eq _ _) Hn) as [_ H].
  destruct (run_stmt (N.clearbit fl IF_bit) body). exact H.
Qed.
