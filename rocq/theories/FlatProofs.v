(** Proofs about FlatModel.v. *)
From stdpp Require Import list.
From Coq Require Import NArith Lia ZifyBool ZifyNat ZifyN.
From Verif Require Import E820Model FlatModel FlatSpec.
Local Open Scope N_scope.

Lemma p16 : 2 ^ 16 = 65536. Proof. reflexivity. Qed.
Lemma p32 : 2 ^ 32 = 4294967296. Proof. reflexivity. Qed.
Lemma line_open a : a < 4294967296 -> line true a = a.
Proof. intros H. unfold line. rewrite p32. apply N.mod_small. exact H. Qed.
Lemma line_low g a : a < 1048576 -> line g a = a.
Proof.
  intros H. unfold line. rewrite p32, (N.mod_small a) by lia. destruct g; [done|].
  apply N.bits_inj. intros i. rewrite N.clearbit_eqb. destruct (N.eqb_spec 20 i); [subst|rewrite andb_true_r; done].
  simpl. rewrite andb_false_r. symmetry. apply N.bits_above_log2.
  destruct (N.eq_dec a 0); [subst; cbn; lia|]. apply N.log2_lt_pow2; [lia|]. exact H.
Qed.
(** the part of memory where the gate makes no difference *)
Definition clear_of (g : bool) (a n : N) : Prop := if g then a + n <= 4294967296 else a + n <= 1048576.
Lemma line_clear g a n : clear_of g a n -> forall i, i < n -> line g (a + i) = a + i.
Proof. intros H i Hi. destruct g; cbn in H; [apply line_open|apply line_low]; lia. Qed.
Lemma clear_tail g a n : clear_of g a (N.succ n) -> clear_of g (a + 1) n.
Proof. destruct g; cbn; lia. Qed.

Lemma rd_load g m n : forall a, clear_of g a (N.of_nat n) -> rd g m n a = le_val (load m a n).
Proof.
  induction n as [|n IH]; intros a H; [done|]. cbn [rd load le_val].
  pose proof (line_clear g a _ H 0 ltac:(lia)) as E. rewrite N.add_0_r in E. rewrite E. f_equal. f_equal. apply IH.
  apply clear_tail. replace (N.succ (N.of_nat n)) with (N.of_nat (S n)) by lia. done.
Qed.
Lemma wr_other g n : forall m a v x, clear_of g a (N.of_nat n) -> (x < a \/ a + N.of_nat n <= x) -> wr g m n a v x = m x.
Proof.
  induction n as [|n IH]; intros m a v x H Hx; [done|]. cbn [wr].
  pose proof (line_clear g a _ H 0 ltac:(lia)) as E. rewrite N.add_0_r in E. rewrite E.
  rewrite IH; [|apply clear_tail; replace (N.succ (N.of_nat n)) with (N.of_nat (S n)) by lia; done|lia].
  destruct (N.eqb_spec x a); [lia|done].
Qed.
Lemma load_ext m m' n : forall a, (forall x, a <= x < a + N.of_nat n -> m' x = m x) -> load m' a n = load m a n.
Proof.
  induction n as [|n IH]; intros a H; [done|]. cbn. f_equal; [apply H; lia|]. apply IH. intros x Hx. apply H. lia.
Qed.
Lemma wr_load g n : forall m a v, clear_of g a (N.of_nat n) -> load (wr g m n a v) a n = le_bytes n v.
Proof.
  induction n as [|n IH]; intros m a v H; [done|]. cbn [wr load le_bytes].
  pose proof (line_clear g a _ H 0 ltac:(lia)) as E. rewrite N.add_0_r in E. rewrite E.
  assert (H' : clear_of g (a + 1) (N.of_nat n)) by (apply clear_tail; replace (N.succ (N.of_nat n)) with (N.of_nat (S n)) by lia; done).
  f_equal; [|apply IH, H']. rewrite wr_other by (done || lia). rewrite N.eqb_refl. done.
Qed.
Lemma le_val_bytes n : forall v, v < 256 ^ N.of_nat n -> le_val (le_bytes n v) = v.
Proof.
  induction n as [|n IH]; intros v H; [cbn in *; lia|]. cbn [le_bytes le_val].
  replace (N.of_nat (S n)) with (N.succ (N.of_nat n)) in H by lia. rewrite N.pow_succ_r' in H.
  rewrite IH; [rewrite (N.div_mod v 256) at 3 by lia; lia|]. apply N.div_lt_upper_bound; lia.
Qed.
Lemma rd_wr g m n a v : clear_of g a (N.of_nat n) -> v < 256 ^ N.of_nat n -> rd g (wr g m n a v) n a = v.
Proof. intros H Hv. rewrite rd_load by done. rewrite wr_load by done. apply le_val_bytes, Hv. Qed.
Lemma rd_wr_other g m n a v k b : clear_of g a (N.of_nat n) -> clear_of g b (N.of_nat k) ->
  (b + N.of_nat k <= a \/ a + N.of_nat n <= b) -> rd g (wr g m n a v) k b = rd g m k b.
Proof.
  intros H H' D. rewrite !rd_load by done. f_equal. apply load_ext. intros x Hx. apply wr_other; [done|]. lia.
Qed.
Lemma rd_ext g m m' k b : clear_of g b (N.of_nat k) -> (forall x, b <= x < b + N.of_nat k -> m' x = m x) -> rd g m' k b = rd g m k b.
Proof. intros H E. rewrite !rd_load by done. f_equal. apply load_ext, E. Qed.

Lemma low16_lt x v : x < 2 ^ 32 -> low16 x v < 2 ^ 32.
Proof.
  intros H. unfold low16. rewrite p16, p32 in *. pose proof (N.mod_lt v 65536 ltac:(lia)).
  assert (x / 65536 <= 65535) by (apply N.lt_succ_r; apply N.div_lt_upper_bound; lia). lia.
Qed.
Lemma low16_mod x v : low16 x v mod 2 ^ 16 = v mod 2 ^ 16.
Proof. unfold low16. rewrite N.add_comm, N.mod_add by (rewrite p16; lia). apply N.mod_mod. rewrite p16. lia. Qed.
Lemma low16_same x : low16 x (x mod 2 ^ 16) = x.
Proof. unfold low16. rewrite N.mod_mod by (rewrite p16; lia). rewrite (N.div_mod x (2 ^ 16)) at 3 by (rewrite p16; lia). lia. Qed.
Lemma low16_twice x v w : low16 (low16 x v) w = low16 x w.
Proof.
  unfold low16 at 1. f_equal. unfold low16. rewrite N.div_add_l by (rewrite p16; lia).
  rewrite (N.div_small (v mod 2 ^ 16)) by (apply N.mod_lt; rewrite p16; lia). rewrite N.add_0_r. reflexivity.
Qed.

Section Stack.
Context (s : mach) (Hb : c_base (ss s) = 0) (Hl : 0xFFFF <= c_limit (ss s)).
Lemma push_ok n v : N.of_nat n <= sp s -> 0 < N.of_nat n -> sp s <= 0x7C00 ->
  push n v s = On (set_sp (sp s - N.of_nat n) (set_ram (wr (gate s) (ram s) n (sp s - N.of_nat n) v) s)).
Proof.
  intros H1 H2 H3. unfold push. assert (E : (sp s + (2 ^ 16 - N.of_nat n)) mod 2 ^ 16 = sp s - N.of_nat n).
  { rewrite p16. replace (sp s + (65536 - N.of_nat n)) with (sp s - N.of_nat n + 1 * 65536) by lia. rewrite N.mod_add by lia. apply N.mod_small. lia. }
  rewrite E. unfold put, lin. cbn [cget]. rewrite Hb.
  assert (L : (sp s - N.of_nat n + N.of_nat n - 1 <=? c_limit (ss s)) = true) by lia. rewrite L. reflexivity.
Qed.
Lemma pop_ok n : 0 < N.of_nat n -> sp s + N.of_nat n <= 0x7C00 ->
  pop n s = On (rd (gate s) (ram s) n (sp s), set_sp (sp s + N.of_nat n) s).
Proof.
  intros H1 H2. unfold pop, fetch, lin. cbn [cget]. rewrite Hb.
  assert (L : (sp s + N.of_nat n - 1 <=? c_limit (ss s)) = true) by lia. rewrite L. cbn [sbind].
  rewrite (N.mod_small (sp s + N.of_nat n)) by (rewrite p16; lia). reflexivity.
Qed.
End Stack.

(** ** The copy loop *)
Lemma body_ok s : gate s = true -> c_base (ds s) = 0 -> 0xFFFF <= c_limit (ds s) -> esi s < 0x8000 ->
  c_base (fs s) = 0 -> c_limit (fs s) = 0xFFFFFFFF -> edi s < 2 ^ 32 ->
  (forall x, ram s x < 256) -> eax s < 2 ^ 32 ->
  exists a, a < 2 ^ 32 /\ run copy_body s =
    On (Mach (fun x => if x =? edi s then ram s (esi s) else ram s x) true a (ecx s) (esi s + 1) ((edi s + 1) mod 2 ^ 32) (sp s)
          (ds s) (fs s) (ss s) (cr0 s) (gbase s) (glimit s) (intr s) (p92 s)).
Proof.
  intros Hg Hd Hdl Hsi Hf Hfl Hdi B Ha. unfold copy_body. cbn [run exec]. unfold fetch, lin. cbn [cget].
  assert (L : (esi s + N.of_nat 1 - 1 <=? c_limit (ds s)) = true) by lia. rewrite L. cbn [sbind]. clear L.
  rewrite Hd, Hg. cbn [rd]. rewrite N.mul_0_r, N.add_0_r. replace (0 + esi s) with (esi s) by lia. rewrite line_open by lia.
  unfold put, lin, gset. cbn -[N.pow N.modulo N.add N.sub N.leb]. rewrite Hfl, Hf.
  assert (L : (edi s + 1 - 1 <=? 0xFFFFFFFF) = true) by (rewrite p32 in Hdi; lia). change (N.of_nat 1) with 1. rewrite L. cbn -[N.pow N.modulo N.add N.sub]. rewrite Hg. clear L.
  exists (low8 (eax s) (ram s (esi s))).
  pose proof (B (esi s)) as Bs.
  assert (E8 : low8 (eax s) (ram s (esi s)) mod 2 ^ 8 = ram s (esi s)).
  { unfold low8. rewrite N.add_comm, N.mod_add by (cbn; lia). rewrite N.mod_mod by (cbn; lia). apply N.mod_small. exact Bs. }
  split.
  { unfold low8. change (2 ^ 8) with 256. rewrite (N.mod_small (ram s (esi s))) by lia. rewrite p32 in *.
    pose proof (N.div_lt_upper_bound (eax s) 256 16777216 ltac:(lia) ltac:(lia)). lia. }
  change (2 ^ 8) with 256 in E8. rewrite p32 in *. do 2 f_equal.
  - change (2 ^ 8) with 256. rewrite E8. rewrite N.add_0_l, line_open by lia. rewrite N.mod_small by lia. reflexivity.
  - f_equal. apply N.mod_small. lia.
Qed.

Lemma loop_ok n : forall fuel s, (n < fuel)%nat -> N.of_nat (S n) < 2 ^ 16 -> ecx s mod 2 ^ 16 = N.of_nat (S n) ->
  gate s = true -> c_base (ds s) = 0 -> 0xFFFF <= c_limit (ds s) -> esi s + N.of_nat (S n) <= 0x8000 ->
  c_base (fs s) = 0 -> c_limit (fs s) = 0xFFFFFFFF -> 0x100000 <= edi s -> edi s + N.of_nat (S n) <= 2 ^ 32 ->
  (forall x, ram s x < 256) -> eax s < 2 ^ 32 ->
  exists a m, a < 2 ^ 32 /\ (forall x, m x < 256) /\
    (forall x, m x = if (edi s <=? x) && (x <? edi s + N.of_nat (S n)) then ram s (esi s + (x - edi s)) else ram s x) /\
    loop fuel copy_body s =
    On (Mach m true a (low16 (ecx s) 0) (esi s + N.of_nat (S n)) ((edi s + N.of_nat (S n)) mod 2 ^ 32) (sp s)
          (ds s) (fs s) (ss s) (cr0 s) (gbase s) (glimit s) (intr s) (p92 s)).
Proof.
  induction n as [|n IH]; intros [|fuel] s Hfu Hn Hc Hg Hd Hdl Hsi Hf Hfl Hlo Hdi B Ha; try lia; cbn [loop];
    (destruct (body_ok s) as (a & Ha' & E); [done|done|done|lia|done|done|lia|done|done|]); rewrite E; cbn [sbind]; clear E;
    unfold gset; cbn [ecx ram gate eax esi edi sp ds fs ss cr0 gbase glimit intr p92]; rewrite Hc.
  - replace ((N.of_nat 1 + (2 ^ 16 - 1)) mod 2 ^ 16 =? 0) with true by reflexivity.
    replace ((N.of_nat 1 + (2 ^ 16 - 1)) mod 2 ^ 16) with 0 by reflexivity.
    eexists a, _. split_and!; [done| |..].
    3: reflexivity.
    { intros x. cbn beta. destruct (x =? edi s); apply B. }
    intros x. cbn beta. change (N.of_nat 1) with 1. destruct (N.eqb_spec x (edi s)) as [->|].
    + replace ((edi s <=? edi s) && (edi s <? edi s + 1)) with true by lia. f_equal. lia.
    + replace ((edi s <=? x) && (x <? edi s + 1)) with false by lia. done.
  - assert (Ec : (N.of_nat (S (S n)) + (2 ^ 16 - 1)) mod 2 ^ 16 = N.of_nat (S n)).
    { rewrite p16 in *. replace (N.of_nat (S (S n)) + (65536 - 1)) with (N.of_nat (S n) + 1 * 65536) by lia. rewrite N.mod_add by lia. apply N.mod_small. lia. }
    rewrite Ec. replace (N.of_nat (S n) =? 0) with false by lia.
    match goal with |- context [loop fuel copy_body ?t] => set (s1 := t) end.
    assert (E1 : (edi s + 1) mod 2 ^ 32 = edi s + 1) by (apply N.mod_small; lia).
    destruct (IH fuel s1) as (a' & m & Ha2 & Bm & Em & El); subst s1; cbn [ecx ram gate eax esi edi sp ds fs ss cr0 gbase glimit intr p92] in *;
      try done; try lia.
    { rewrite low16_mod. apply N.mod_small. rewrite p16 in *. lia. }
    { intros x. destruct (x =? edi s); apply B. }
    exists a', m. split_and!; [done|done| |].
    + intros x. rewrite Em, E1. clear Em El IH.
      destruct (N.leb_spec (edi s) x); cbn [andb].
      * destruct (N.ltb_spec x (edi s + N.of_nat (S (S n)))); cbn [andb].
        { destruct (N.eqb_spec x (edi s)) as [->|].
          - replace ((edi s + 1 <=? edi s) && (edi s <? edi s + 1 + N.of_nat (S n))) with false by lia. f_equal. lia.
          - replace ((edi s + 1 <=? x) && (x <? edi s + 1 + N.of_nat (S n))) with true by lia.
            replace (esi s + 1 + (x - (edi s + 1)) =? edi s) with false by lia. f_equal. lia. }
        { replace ((edi s + 1 <=? x) && (x <? edi s + 1 + N.of_nat (S n))) with false by lia.
          replace (x =? edi s) with false by lia. done. }
      * replace ((edi s + 1 <=? x) && (x <? edi s + 1 + N.of_nat (S n))) with false by lia.
        replace (x =? edi s) with false by lia. done.
    + rewrite El, E1. rewrite low16_twice. do 2 f_equal; [lia|]. f_equal. lia.
Qed.
