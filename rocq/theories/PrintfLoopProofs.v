(** Proofs about the format loop of PrintfModel. *)
From stdpp Require Import gmap.
From Coq Require Import ZArith Lia ZifyBool ZifyNat ZifyN SpecFloat.
From Verif Require Import Base StringModel StringSpec StringProofs PrintfModel PrintfSpec PrintfProofs.
Local Open Scope N_scope.
Local Open Scope fres_scope.
Ltac Zify.zify_post_hook ::= Z.div_mod_to_equations.

(** ** Safety *)

Lemma fmt_at_ok fmt i : (i <= length fmt)%nat -> exists c, fmt_at fmt i = FOk c.
Proof.
  intros H. unfold fmt_at. destruct (fmt !! i) eqn:E; [eauto|].
  apply lookup_ge_None in E. replace (i =? length fmt)%nat with true by lia. eauto.
Qed.

Lemma fmt_at_nonzero fmt i c : fmt_at fmt i = FOk c -> c <> 0 -> (i < length fmt)%nat.
Proof.
  unfold fmt_at. destruct (fmt !! i) eqn:E.
  - intros _ _. apply lookup_lt_Some in E. exact E.
  - destruct (i =? length fmt)%nat; [|discriminate]. intros [= <-]. congruence.
Qed.

Lemma scan_digits_ok fmt fuel : forall i w,
  (i <= length fmt)%nat -> (length fmt <= i + fuel)%nat ->
  exists i' w', scan_digits fuel fmt i w = FOk (i', w') /\ (i <= i' <= length fmt)%nat.
Proof.
  induction fuel as [|f IH]; intros i w H1 H2; cbn [scan_digits];
    destruct (fmt_at_ok fmt i H1) as [c Hc]; rewrite Hc; cbn [fbind].
  - destruct ((48 <=? c) && (c <=? 57)) eqn:E.
    + assert (i < length fmt)%nat by (eapply fmt_at_nonzero; eauto; lia). lia.
    + eauto.
  - destruct ((48 <=? c) && (c <=? 57)) eqn:E.
    + assert (i < length fmt)%nat by (eapply fmt_at_nonzero; eauto; lia).
      destruct (IH (S i) (u32 (w * 10 + c + (2 ^ 32 - 48)))) as (i' & w' & -> & Hi); [lia|lia|].
      exists i', w'. split; [reflexivity|lia].
    + eauto.
Qed.

Lemma scan_flags_ok fmt fuel : forall i args fl,
  (i <= length fmt)%nat -> (length fmt < i + fuel)%nat ->
  match scan_flags fuel fmt i args fl with
  | FOk (i', _, _) => (i <= i' <= length fmt)%nat
  | FErr e => e = BadArg
  end.
Proof.
  induction fuel as [|f IH]; intros i args fl H1 H2; [lia|]. cbn [scan_flags].
  destruct (fmt_at_ok fmt i H1) as [c Hc]. rewrite Hc. cbn [fbind].
  assert (Hlt : c <> 0 -> (i < length fmt)%nat) by (intros; eapply fmt_at_nonzero; eauto).
  assert (Hrec : forall args fl, c <> 0 ->
    match scan_flags f fmt (S i) args fl with
    | FOk (i', _, _) => (i <= i' <= length fmt)%nat
    | FErr e => e = BadArg
    end).
  { intros args0 fl0 Hc0. specialize (Hlt Hc0).
    pose proof (IH (S i) args0 fl0) as H.
    destruct (scan_flags f fmt (S i) args0 fl0) as [[[i' a'] f']|e].
    - assert (S i <= i' <= length fmt)%nat by (apply H; lia). lia.
    - apply H; lia. }
  destruct (c =? 46) eqn:E46.
  { destruct (scan_digits_ok fmt (length fmt) (S i) (frac_width fl)) as (i' & w' & -> & Hi); [lia|lia|].
    cbn [fbind]. lia. }
  destruct (c =? 117) eqn:E1; [apply Hrec; lia|].
  destruct (c =? 109) eqn:E2; [apply Hrec; lia|].
  destruct (c =? 88) eqn:E3; [apply Hrec; lia|].
  destruct (c =? 120) eqn:E4; [apply Hrec; lia|].
  destruct (c =? 42) eqn:E5; [|lia].
  unfold va64. destruct args as [|[] ?]; cbn [fbind]; try reflexivity. apply Hrec; lia.
Qed.

(** One loop iteration: progress in the format, output inside the buffer. *)
Definition psafe (bd : bounds) (len : nat) (m : mem) (b : N) (i : nat) (r : fres pst) : Prop :=
  match r with
  | FOk s => (i < pfmt s <= S len)%nat /\ b <= pbuf s /\ pbuf s <= last bd /\
             same_outside m (pm s) (base bd) (last bd)
  | FErr e => e <> Wild /\ e <> NoFuel
  end.

Lemma psafe_done bd len m b i j (r : fres (mem * N)) args :
  safe bd m b r -> (i <= j <= len)%nat ->
  psafe bd len m b i
    (r' <~ r; FOk {| pm := r'.1; pbuf := r'.2; pfmt := S j; pargs := args |}).
Proof.
  intros Hs Hi. destruct r as [[m' b']|e]; cbn [fbind psafe]; [|exact Hs].
  destruct Hs as (H1 & H2 & H3). cbn [pm pbuf pfmt fst snd]. repeat split; try lia. exact H3.
Qed.

Lemma convert_safe bd fmt m b i j args zero width fl :
  wfb bd -> base bd <= b -> b < last bd -> (i <= j <= length fmt)%nat ->
  psafe bd (length fmt) m b i (convert bd fmt m b j args zero width fl).
Proof.
  intros Hw H1 H2 Hi. unfold convert.
  destruct (fmt_at_ok fmt j) as [c Hc]; [lia|]. rewrite Hc. cbn [fbind].
  assert (H32 : forall w, psafe bd (length fmt) m b i
    ('(b0, a) <~ va32 args;
     r <~ conv_int bd m b zero w (sign fl) (hex fl) (s32 b0) b0;
     FOk {| pm := r.1; pbuf := r.2; pfmt := S j; pargs := a |})).
  { intros w. unfold va32. destruct args as [|[] ?]; cbn [fbind]; try (split; discriminate).
    apply psafe_done; [|lia]. apply conv_int_safe; [exact Hw|exact H1|exact H2|apply u32_lt]. }
  assert (H64 : psafe bd (length fmt) m b i
    ('(b0, a) <~ va64 args;
     r <~ conv_int bd m b zero width (sign fl) (hex fl) (s64 b0) b0;
     FOk {| pm := r.1; pbuf := r.2; pfmt := S j; pargs := a |})).
  { unfold va64. destruct args as [|[] ?]; cbn [fbind]; try (split; discriminate).
    apply psafe_done; [|lia]. apply conv_int_safe; [exact Hw|exact H1|exact H2|apply u64_lt]. }
  destruct (c =? 115).
  { unfold vaptr. destruct args as [|[] ?]; cbn [fbind]; try (split; discriminate).
    apply psafe_done; [|lia]. destruct (slen fl =? 2 ^ 64 - 1).
    - apply copy_cstr_safe; [exact H1|lia|reflexivity].
    - apply copy_counted_safe; [exact Hw|exact H1|lia]. }
  destruct (c =? 122); [destruct (sign fl) eqn:?; [apply H32|apply H64]|].
  destruct (c =? 105); [apply H32|].
  destruct (c =? 100); [apply H32|].
  destruct (c =? 108); [apply H64|].
  destruct (c =? 68); [apply H32|].
  destruct (c =? 76); [apply H64|].
  destruct (c =? 102).
  { unfold vadbl. destruct args as [|[] ?]; cbn [fbind]; try (split; discriminate).
    apply psafe_done; [|lia]. apply conv_float_safe; assumption. }
  destruct (c =? 112).
  { unfold vaptr. destruct args as [|[] ?]; cbn [fbind]; try (split; discriminate).
    apply psafe_done; [|lia]. apply conv_int_safe; [exact Hw|exact H1|exact H2|apply u64_lt]. }
  destruct (c =? 99).
  { unfold va32. destruct args as [|[] ?]; cbn [fbind]; try (split; discriminate).
    apply psafe_done; [|lia]. apply put_safe; assumption. }
  destruct (c =? 37); (apply psafe_done; [|lia]; apply put_safe; assumption).
Qed.

Lemma step_safe bd fmt s c :
  wfb bd -> base bd <= pbuf s -> pbuf s < last bd -> (pfmt s < length fmt)%nat ->
  psafe bd (length fmt) (pm s) (pbuf s) (pfmt s) (step bd fmt s c).
Proof.
  intros Hw H1 H2 Hi. unfold step. destruct (c =? 37).
  - destruct (fmt_at_ok fmt (S (pfmt s))) as [c1 Hc1]; [lia|]. rewrite Hc1. cbn [fbind].
    destruct (scan_digits_ok fmt (length fmt) (S (pfmt s)) 0) as (i2 & w & -> & Hi2); [lia|lia|].
    cbn [fbind].
    pose proof (scan_flags_ok fmt (S (length fmt)) i2 (pargs s) flags0) as Hf.
    destruct (scan_flags (S (length fmt)) fmt i2 (pargs s) flags0) as [[[i3 args] fl]|e]; cbn [fbind].
    + apply convert_safe; try assumption. assert (i2 <= i3 <= length fmt)%nat by (apply Hf; lia). lia.
    + rewrite Hf by lia. split; discriminate.
  - rewrite put_ok by assumption. cbn [fbind psafe pfmt pbuf pm].
    repeat split; try lia. intros x Hx. rewrite lookup_insert_ne by lia. reflexivity.
Qed.

Lemma vloop_safe bd fmt fuel : forall s,
  wfb bd -> base bd <= pbuf s -> pbuf s <= last bd ->
  (pfmt s <= S (length fmt))%nat -> (length fmt <= pfmt s + fuel)%nat ->
  match vloop fuel bd fmt s with
  | FOk s' => pbuf s <= pbuf s' /\ pbuf s' <= last bd /\ same_outside (pm s) (pm s') (base bd) (last bd)
  | FErr e => e <> Wild /\ e <> NoFuel
  end.
Proof.
  induction fuel as [|f IH]; intros s Hw H1 H2 Hi Hf; cbn [vloop].
  - destruct (fmt_at fmt (pfmt s)) as [c|e] eqn:Hc; cbn [fbind].
    + destruct (negb (c =? 0) && (pbuf s <? last bd)) eqn:E.
      * assert (pfmt s < length fmt)%nat by (eapply fmt_at_nonzero; eauto; lia). lia.
      * split; [lia|]. split; [lia|]. apply same_outside_refl.
    + unfold fmt_at in Hc. destruct (fmt !! pfmt s); [discriminate|].
      destruct (_ =? _)%nat; [discriminate|]. injection Hc as <-. split; discriminate.
  - destruct (fmt_at fmt (pfmt s)) as [c|e] eqn:Hc; cbn [fbind].
    + destruct (negb (c =? 0) && (pbuf s <? last bd)) eqn:E.
      * assert (pfmt s < length fmt)%nat by (eapply fmt_at_nonzero; eauto; lia).
        pose proof (step_safe bd fmt s c Hw H1) as Hs.
        destruct (step bd fmt s c) as [s1|e]; cbn [fbind]; [|apply Hs; lia].
        destruct Hs as (Ha & Hb & Hc' & Hd); [lia|lia|].
        specialize (IH s1 Hw). destruct (vloop f bd fmt s1) as [s2|e]; [|apply IH; lia].
        destruct IH as (He & Hg & Hh); [lia|lia|lia|lia|].
        split; [lia|]. split; [lia|]. eapply same_outside_trans; eauto.
      * split; [lia|]. split; [lia|]. apply same_outside_refl.
    + unfold fmt_at in Hc. destruct (fmt !! pfmt s); [discriminate|].
      destruct (_ =? _)%nat; [discriminate|]. injection Hc as <-. split; discriminate.
Qed.

Lemma vslprintf_safe m buf lst fmt args :
  0 < buf -> buf <= lst -> lst < 2 ^ 64 ->
  match vslprintf m buf lst fmt args with
  | FOk (m', r) => buf <= r /\ r <= lst /\ same_outside m m' buf lst
  | FErr e => e <> Wild /\ e <> NoFuel
  end.
Proof.
  intros H1 H2 H3. unfold vslprintf.
  set (bd := {| base := buf; last := lst |}).
  assert (Hw : wfb bd) by (repeat split; assumption).
  pose proof (vloop_safe bd fmt (S (length fmt)) {| pm := m; pbuf := buf; pfmt := 0; pargs := args |} Hw) as Hl.
  destruct (vloop (S (length fmt)) bd fmt _) as [s|e]; cbn [fbind].
  - destruct Hl as (Ha & Hb & Hc); [cbn; lia|cbn; lia|cbn; lia|cbn; lia|]. cbn [pbuf pm] in *.
    destruct (pbuf s <? lst) eqn:E.
    + rewrite put_ok by (cbn; lia). cbn in Hb. split; [lia|]. split; [lia|].
      intros x Hx. rewrite lookup_insert_ne by lia. apply Hc. exact Hx.
    + split; [lia|]. split; [exact Hb|]. exact Hc.
  - apply Hl; cbn; lia.
Qed.

(** ** Meaning of well-formed formats *)

Lemma fmt_at_here pre c rest : fmt_at (pre ++ c :: rest) (length pre) = FOk c.
Proof. unfold fmt_at. rewrite list_lookup_middle; reflexivity. Qed.

Definition head0 (l : list N) : N := match l with c :: _ => c | [] => 0 end.

Lemma fmt_at_head pre rest : fmt_at (pre ++ rest) (length pre) = FOk (head0 rest).
Proof.
  destruct rest as [|c rest]; [|apply fmt_at_here].
  unfold fmt_at. rewrite app_nil_r. rewrite (lookup_ge_None_2 pre) by lia.
  rewrite Nat.eqb_refl. reflexivity.
Qed.

Definition width_from (w0 : N) (w : list N) : N :=
  fold_left (fun acc c => (acc * 10 + (c - 48)) mod 2 ^ 32) w w0.

Lemma scan_digits_run ds : forall pre rest fuel w,
  Forall is_digit ds -> ~ is_digit (head0 rest) -> (length ds <= fuel)%nat ->
  scan_digits fuel (pre ++ ds ++ rest) (length pre) w = FOk ((length pre + length ds)%nat, width_from w ds).
Proof.
  induction ds as [|d ds IH]; intros pre rest fuel w Hd Hr Hf.
  - assert (E : (48 <=? head0 rest) && (head0 rest <=? 57) = false).
    { unfold is_digit in Hr. lia. }
    destruct fuel; cbn [scan_digits app length width_from fold_left];
      rewrite fmt_at_head; cbn [fbind]; rewrite E, Nat.add_0_r; reflexivity.
  - inversion Hd as [|? ? Hd1 Hd2]; subst.
    destruct fuel as [|fuel]; [simpl in Hf; lia|]. cbn [scan_digits].
    change ((d :: ds) ++ rest) with (d :: ds ++ rest). rewrite fmt_at_here. cbn [fbind].
    destruct ((48 <=? d) && (d <=? 57)) eqn:E; [|unfold is_digit in Hd1; lia].
    replace (pre ++ d :: ds ++ rest) with ((pre ++ [d]) ++ ds ++ rest) by (rewrite <- app_assoc; reflexivity).
    replace (S (length pre)) with (length (pre ++ [d])) by (rewrite app_length; simpl; lia).
    rewrite IH; [|exact Hd2|exact Hr|simpl in Hf; lia].
    f_equal. f_equal; [rewrite app_length; simpl; lia|].
    unfold width_from. cbn [fold_left]. f_equal. unfold u32. unfold is_digit in Hd1.
    replace (w * 10 + d + (2 ^ 32 - 48)) with (w * 10 + (d - 48) + 1 * 2 ^ 32).
    + apply N.mod_add. discriminate.
    + assert (48 < 2 ^ 32) by reflexivity. lia.
Qed.

(** The hex selector of the code for a base and letter case of the specification. *)
Definition hex_of (b : N * bool) : N := if b.1 =? 10 then 0 else if b.2 then 2 else 1.
Definition base_step (acc : N * bool) (c : N) : N * bool :=
  if c =? 120 then (16, false) else if c =? 88 then (16, true) else acc.
Definition count_of (cnt : option N) : N := match cnt with Some n => n | None => 2 ^ 64 - 1 end.

Lemma scan_flags_run fs : forall pre rest fuel args args1 cnt0 cnt fl acc,
  Forall is_flag fs -> (length fs <= fuel)%nat ->
  take_stars (stars_of fs) args cnt0 = Some (cnt, args1) ->
  slen fl = count_of cnt0 -> hex fl = hex_of acc ->
  scan_flags fuel (pre ++ fs ++ rest) (length pre) args fl =
  scan_flags (fuel - length fs) (pre ++ fs ++ rest) (length pre + length fs)%nat args1
    {| sign := sign fl && signed_of fs; hex := hex_of (fold_left base_step fs acc);
       max_width := max_width fl || max_of fs; frac_width := frac_width fl; slen := count_of cnt |}.
Proof.
  induction fs as [|x fs IH]; intros pre rest fuel args args1 cnt0 cnt fl acc Hfs Hfu Hst Hsl Hhx.
  - simpl in Hst. injection Hst as <- <-. simpl. rewrite Nat.sub_0_r, Nat.add_0_r.
    destruct fl as [sg hx mw fw sl]. simpl in *. rewrite andb_true_r, orb_false_r. subst. reflexivity.
  - inversion Hfs as [|? ? Hx Hfs']; subst.
    destruct fuel as [|fuel]; [simpl in Hfu; lia|].
    cbn [scan_flags]. change ((x :: fs) ++ rest) with (x :: fs ++ rest). rewrite fmt_at_here. cbn [fbind].
    assert (Epre : pre ++ x :: fs ++ rest = (pre ++ [x]) ++ fs ++ rest) by (rewrite <- app_assoc; reflexivity).
    assert (Elen : S (length pre) = length (pre ++ [x])) by (rewrite app_length; simpl; lia).
    assert (Eidx : (length pre + length (x :: fs))%nat = (length (pre ++ [x]) + length fs)%nat)
      by (rewrite app_length; simpl; lia).
    rewrite Eidx, Elen, Epre. change (S fuel - length (x :: fs))%nat with (fuel - length fs)%nat.
    simpl length in Hfu.
    cbn [fold_left].
    destruct Hx as [->|[->|[->|[->| ->]]]]; cbn -[scan_flags fold_left] in *.
    + rewrite (IH (pre ++ [117]) rest fuel args args1 cnt0 cnt _ acc); try assumption; try lia.
      cbn -[scan_flags fold_left]. f_equal. f_equal. rewrite andb_false_r. reflexivity.
    + rewrite (IH (pre ++ [109]) rest fuel args args1 cnt0 cnt _ acc); try assumption; try lia.
      cbn -[scan_flags fold_left]. f_equal. f_equal. rewrite orb_true_r. reflexivity.
    + rewrite (IH (pre ++ [88]) rest fuel args args1 cnt0 cnt _ (16, true)); try assumption; try lia; [|reflexivity].
      cbn -[scan_flags fold_left]. f_equal. f_equal. rewrite andb_false_r. reflexivity.
    + rewrite (IH (pre ++ [120]) rest fuel args args1 cnt0 cnt _ (16, false)); try assumption; try lia; [|reflexivity].
      cbn -[scan_flags fold_left]. f_equal. f_equal. rewrite andb_false_r. reflexivity.
    + destruct args as [|[n|n|p|q] args]; try discriminate. cbn [va64 fbind].
      rewrite (IH (pre ++ [42]) rest fuel args args1 (Some (n mod 2 ^ 64)) cnt _ acc); try assumption; try lia;
        [|reflexivity].
      cbn -[scan_flags fold_left]. f_equal.
Qed.

(** Memory [m0] (holding string arguments) is part of [m] and outside the buffer. *)
Definition held (m0 m : mem) (bd : bounds) : Prop :=
  forall x v, m0 !! x = Some v -> m !! x = Some v /\ (x < base bd \/ last bd <= x).

Lemma held_written m0 m bd b o m' :
  base bd <= b -> b + N.of_nat (length o) <= last bd ->
  held m0 m bd -> text_written m b o m' -> held m0 m' bd.
Proof.
  intros H1 H2 Hh Ht x v Hx. destruct (Hh x v Hx) as [Hm Ho]. split; [|exact Ho].
  rewrite <- Hm. symmetry.
  apply (text_written_outside bd m b o m' H1 H2 Ht x Ho).
Qed.

Lemma mapped_written m b o m' a n : mapped m a n -> text_written m b o m' -> mapped m' a n.
Proof.
  intros Hm Ht i Hi. rewrite Ht. destruct ((b <=? a + i) && (a + i <? b + N.of_nat (length o))) eqn:E.
  - apply lookup_lt_is_Some. lia.
  - apply Hm. exact Hi.
Qed.

Lemma emits_full bd m b o : last bd <= b -> emits bd m b o (FOk (m, b)).
Proof.
  intros H. exists m. replace (room bd b) with 0%nat by (unfold room; lia). simpl.
  rewrite N.add_0_r. split; [reflexivity|apply text_written_nil].
Qed.

Lemma copy_cstr_emits bd m0 s : forall fuel m b p,
  base bd <= b -> b <= last bd -> (room bd b <= fuel)%nat -> held m0 m bd ->
  cstring_at m0 p (N.of_nat (length s)) ->
  (forall i c, s !! i = Some c -> m0 !! (p + N.of_nat i) = Some c) ->
  emits bd m b s (copy_cstr fuel bd m b p).
Proof.
  induction s as [|c s IH]; intros fuel m b p H1 H2 Hf Hh [Hz Hnz] Hs.
  - assert (E : m !! p = Some 0).
    { simpl in Hz. rewrite N.add_0_r in Hz. apply Hh in Hz. apply Hz. }
    destruct fuel; cbn [copy_cstr]; rewrite E; cbn; apply emits_nil.
  - assert (Hc : m0 !! p = Some c) by (rewrite <- (N.add_0_r p); apply (Hs 0%nat); reflexivity).
    assert (c <> 0) as Hc0.
    { destruct (Hnz 0) as (c' & Hc' & Hne); [simpl; lia|]. rewrite N.add_0_r in Hc'. congruence. }
    destruct (Hh _ _ Hc) as [Hmc _].
    destruct (decide (b < last bd)) as [Hlt|Hge].
    + destruct fuel as [|fuel]; [unfold room in Hf; lia|]. cbn [copy_cstr]. rewrite Hmc.
      destruct (negb (c =? 0) && (b <? last bd)) eqn:E; [|lia].
      change (c :: s) with ([c] ++ s).
      apply emits_app; [exact H2|apply put_emits; assumption|].
      intros m1 b1 Hr Hb1 Hb2. rewrite put_ok in Hr by assumption. injection Hr as <- <-.
      apply IH; [lia|lia|unfold room in *; lia| | |].
      * intros x v Hx. destruct (Hh x v Hx) as [Hm Ho]. split; [|exact Ho].
        rewrite lookup_insert_ne by lia. exact Hm.
      * split.
        -- rewrite <- Hz. f_equal. simpl length. lia.
        -- intros i Hi. destruct (Hnz (i + 1)) as (c' & Hc' & Hne); [simpl length; lia|].
           exists c'. split; [|exact Hne]. rewrite <- Hc'. f_equal. lia.
      * intros i c' Hi. rewrite <- (Hs (S i) c' Hi). f_equal. lia.
    + assert (Ecp : copy_cstr fuel bd m b p = FOk (m, b)).
      { destruct fuel; cbn [copy_cstr]; rewrite Hmc;
          destruct (negb (c =? 0) && (b <? last bd)) eqn:E; (lia || reflexivity). }
      rewrite Ecp. apply emits_full. lia.
Qed.

Lemma copy_counted_emits bd m0 m b p s n :
  wfb bd -> base bd <= b -> b <= last bd -> held m0 m bd ->
  mapped m (base bd) (last bd - base bd) ->
  n = N.of_nat (length s) -> p <> 0 ->
  (forall i c, s !! i = Some c -> m0 !! (p + N.of_nat i) = Some c) ->
  emits bd m b s (copy_counted bd m b p n).
Proof.
  intros Hw H1 H2 Hh Hmap Hn Hp Hs. unfold copy_counted. rewrite u64z_diff by assumption.
  destruct Hw as (Hw1 & Hw2 & Hw3).
  set (len := if last bd - b <? n then last bd - b else n).
  assert (Hlen : N.to_nat len = length (take (room bd b) s)).
  { rewrite take_length. unfold len, room. destruct (last bd - b <? n) eqn:E; lia. }
  assert (Hlen' : len <= last bd - b /\ len <= n).
  { unfold len. destruct (last bd - b <? n) eqn:E; lia. }
  destruct (negb _ && negb _) eqn:E; [lia|].
  assert (Hsrc : forall i, i < len -> exists c, s !! N.to_nat i = Some c /\ m0 !! (p + i) = Some c).
  { intros i Hi. destruct (lookup_lt_is_Some_2 s (N.to_nat i)) as [c Hc]; [lia|].
    exists c. split; [exact Hc|]. rewrite <- (Hs _ _ Hc). f_equal. lia. }
  destruct (memcpy_ok m b p len) as (m' & Hm & Hmv); [lia|exact Hp| | | |].
  { intros i Hi. destruct (Hsrc i Hi) as (c & _ & Hc). destruct (Hh _ _ Hc) as [-> _]. eauto. }
  { intros i Hi. apply (mapped_lookup m _ _ _ Hmap); lia. }
  { right. destruct (decide (len = 0)) as [->|Hl0]; [unfold disjoint_ranges; lia|].
    destruct (decide (b + len <= p)) as [Hd|Hd]; [left; lia|].
    destruct (decide (p + len <= b)) as [Hd'|Hd']; [right; lia|]. exfalso.
    destruct (decide (p <= b)).
    - destruct (Hsrc (b - p)) as (c & _ & Hc); [lia|]. destruct (Hh _ _ Hc). lia.
    - destruct (Hsrc 0) as (c & _ & Hc); [lia|]. destruct (Hh _ _ Hc). lia. }
  rewrite Hm. exists m'. split.
  - do 2 f_equal. lia.
  - intros x. rewrite Hmv, <- Hlen, N2Nat.id.
    destruct ((b <=? x) && (x <? b + len)) eqn:Ex; [|reflexivity].
    destruct (Hsrc (x - b)) as (c & Hc & Hc0); [lia|].
    rewrite lookup_take by (unfold room; lia). rewrite Hc.
    destruct (Hh _ _ Hc0) as [-> _]. reflexivity.
Qed.

Lemma conv_int_emits bd m b zero width (sg : bool) hx (i : Z) (u : N) (v : Z) ds :
  wfb bd -> base bd <= b -> b < last bd -> u < 2 ^ 64 ->
  v = (if sg then i else Z.of_N u) -> (- 2 ^ 63 < v < 2 ^ 64)%Z ->
  numeral (num_base hx) (num_upper hx) (Z.to_N (Z.abs v)) ds ->
  emits bd m b ((if (v <? 0)%Z then [45] else []) ++ padded zero width ds)
        (conv_int bd m b zero width sg hx i u).
Proof.
  intros Hw H1 H2 Hu Hv Hr Hn.
  assert (H63 : (2 ^ 63)%Z = Z.of_N (2 ^ 63)) by reflexivity.
  assert (H6364 : 2 ^ 63 < 2 ^ 64) by reflexivity.
  rewrite H63, pow64_Z in Hr.
  assert (Hb : 2 <= num_base hx) by (unfold num_base; destruct (hx =? 0); lia).
  assert (Hnum : forall m1 b1 k, k = Z.to_N (Z.abs v) -> base bd <= b1 -> b1 <= last bd ->
            emits bd m1 b1 (padded zero width ds) (sprintf_num bd m1 b1 k zero hx width)).
  { intros m1 b1 k -> Ha Hb1.
    destruct (sprintf_num_emits bd m1 b1 (Z.to_N (Z.abs v)) zero hx width Hw Ha Hb1) as (ds' & Hd & _ & He); [lia|].
    rewrite (numeral_unique _ _ Hb _ _ _ Hn Hd). exact He. }
  unfold conv_int. destruct sg; subst v; cbn [fbind].
  - destruct (i <? 0)%Z eqn:Ei; cbn [fbind].
    + rewrite put_ok by assumption. cbn [fbind].
      destruct (i =? - 2 ^ 63)%Z eqn:Em; [rewrite H63 in Em; lia|]. cbn [fbind].
      pose proof (put_emits bd m b 45 H1 H2) as Hp. rewrite put_ok in Hp by assumption.
      change (sprintf_num bd (<[b:=45]> m) (b + 1) (u64z (- i)) zero hx width)
        with (fbind (FOk (<[b:=45]> m, b + 1)) (fun r => sprintf_num bd r.1 r.2 (u64z (- i)) zero hx width)).
      apply emits_app; [lia|exact Hp|].
      intros m1 b1 _ Hb1 Hb2. cbn [fst snd]. apply Hnum; [|lia|exact Hb2].
      rewrite u64z_small by (rewrite pow64_Z; lia). lia.
    + simpl app. apply Hnum; [|exact H1|lia]. rewrite u64z_small by (rewrite pow64_Z; lia). lia.
  - replace (Z.of_N u <? 0)%Z with false by lia. simpl app. apply Hnum; lia.
Qed.

Definition pemits (bd : bounds) (s : pst) (o : list N) (i' : nat) (args' : list arg) (r : fres pst) : Prop :=
  exists m', r = FOk {| pm := m'; pbuf := pbuf s + N.of_nat (length (take (room bd (pbuf s)) o));
                        pfmt := i'; pargs := args' |} /\
             text_written (pm s) (pbuf s) (take (room bd (pbuf s)) o) m'.

Lemma pemits_done bd s o r j args :
  emits bd (pm s) (pbuf s) o r ->
  pemits bd s o (S j) args (r' <~ r; FOk {| pm := r'.1; pbuf := r'.2; pfmt := S j; pargs := args |}).
Proof. intros (m' & -> & Ht). exists m'. split; [reflexivity|exact Ht]. Qed.

Lemma s32_value b : s32 (u32 b) = int_value 32 true b.
Proof.
  unfold s32, int_value, u32. rewrite N.mod_mod by discriminate.
  change (Z.of_N 32 - 1)%Z with 31%Z. change (Z.of_N 32) with 32%Z. cbn [andb].
  destruct (Z.of_N (b mod 2 ^ 32) <? 2 ^ 31)%Z eqn:E; destruct (2 ^ 31 <=? Z.of_N (b mod 2 ^ 32))%Z eqn:E2; lia.
Qed.
Lemma s64_value b : s64 (u64 b) = int_value 64 true b.
Proof.
  unfold s64, int_value, u64. rewrite N.mod_mod by discriminate.
  change (Z.of_N 64 - 1)%Z with 63%Z. change (Z.of_N 64) with 64%Z. cbn [andb].
  destruct (Z.of_N (b mod 2 ^ 64) <? 2 ^ 63)%Z eqn:E; destruct (2 ^ 63 <=? Z.of_N (b mod 2 ^ 64))%Z eqn:E2; lia.
Qed.
Lemma int_value_range bits sg raw : bits = 32 \/ bits = 64 ->
  int_value bits sg raw <> (- 2 ^ 63)%Z -> (- 2 ^ 63 < int_value bits sg raw < 2 ^ 64)%Z.
Proof.
  intros Hb Hne. revert Hne. unfold int_value.
  assert (2 ^ 32 = 4294967296)%Z by reflexivity. assert (2 ^ 31 = 2147483648)%Z by reflexivity.
  assert (2 ^ 63 = 9223372036854775808)%Z by reflexivity.
  assert (2 ^ 64 = 18446744073709551616)%Z by reflexivity.
  assert (2 ^ 32 = 4294967296) by reflexivity. assert (2 ^ 64 = 18446744073709551616) by reflexivity.
  destruct Hb as [->| ->].
  - change (Z.of_N 32 - 1)%Z with 31%Z. change (Z.of_N 32) with 32%Z.
    pose proof (N.mod_lt raw (2 ^ 32)).
    destruct (sg && _) eqn:E; lia.
  - change (Z.of_N 64 - 1)%Z with 63%Z. change (Z.of_N 64) with 64%Z.
    pose proof (N.mod_lt raw (2 ^ 64)).
    destruct (sg && _) eqn:E; lia.
Qed.

Lemma base_of_cases f : base_of f = (10, false) \/ (base_of f).1 = 16.
Proof.
  unfold base_of.
  assert (G : forall acc : N * bool, acc = (10, false) \/ acc.1 = 16 ->
    fold_left base_step f acc = (10, false) \/ (fold_left base_step f acc).1 = 16).
  { induction f as [|x f IH]; intros acc H; [exact H|].
    cbn [fold_left]. apply IH. unfold base_step. destruct (x =? 120); [right; reflexivity|].
    destruct (x =? 88); [right; reflexivity|exact H]. }
  apply G. left. reflexivity.
Qed.

Lemma hex_of_base f : num_base (hex_of (base_of f)) = (base_of f).1 /\
                      num_upper (hex_of (base_of f)) = (base_of f).2.
Proof.
  destruct (base_of_cases f) as [->|H]; [split; reflexivity|].
  unfold hex_of. rewrite H. cbn. destruct ((base_of f).2); split; reflexivity.
Qed.

Definition tail_of (fr : option (list N)) (c : N) : list N :=
  match fr with Some ds => 46 :: ds | None => [] end ++ [c].

Lemma step_conv_frac bd pre w f fr c rest s cnt args1 :
  wf_directive (Conv w f fr c) ->
  pfmt s = length pre ->
  take_stars (stars_of f) (pargs s) None = Some (cnt, args1) ->
  exists j,
    step bd (pre ++ unparse1 (Conv w f fr c) ++ rest) s 37 =
    convert bd (pre ++ unparse1 (Conv w f fr c) ++ rest) (pm s) (pbuf s) j args1 (pad_of w) (width_of w)
      {| sign := signed_of f; hex := hex_of (base_of f); max_width := max_of f;
         frac_width := match fr with Some ds => width_of ds | None => 0 end; slen := count_of cnt |} /\
    fmt_at (pre ++ unparse1 (Conv w f fr c) ++ rest) j = FOk c /\
    S j = (length pre + length (unparse1 (Conv w f fr c)))%nat.
Proof.
  intros (Hw & Hf & Hc & Hfr) Hpre Hst.
  set (fmt := pre ++ unparse1 (Conv w f fr c) ++ rest).
  assert (E1 : fmt = (pre ++ [37]) ++ w ++ (f ++ tail_of fr c ++ rest)).
  { unfold fmt, tail_of. cbn [unparse1]. rewrite <- !app_assoc. cbn. rewrite <- !app_assoc. reflexivity. }
  assert (L1 : S (pfmt s) = length (pre ++ [37])) by (rewrite Hpre, app_length; simpl; lia).
  assert (Hnd : ~ is_digit (head0 (f ++ tail_of fr c ++ rest))).
  { destruct f as [|x f]; cbn.
    - destruct fr as [ds|]; cbn; [unfold is_digit; lia|]. destruct Hfr as (_ & _ & H). apply H. reflexivity.
    - inversion Hf as [|? ? Hx _]; subst. unfold is_flag, is_digit in *. lia. }
  assert (Hlen : length fmt = (length pre + (1 + (length w + (length f + (length (tail_of fr c) + length rest)))))%nat).
  { rewrite E1, !app_length. simpl. lia. }
  assert (Hul : length (unparse1 (Conv w f fr c)) = (1 + (length w + (length f + length (tail_of fr c))))%nat).
  { cbn [unparse1 length]. rewrite !app_length. unfold tail_of. rewrite app_length. lia. }
  unfold step. cbn [N.eqb Pos.eqb].
  rewrite L1, E1, fmt_at_head. cbn [fbind].
  rewrite scan_digits_run; [|exact Hw|exact Hnd|rewrite <- E1, Hlen; lia].
  cbn [fbind].
  assert (E2 : (pre ++ [37]) ++ w ++ f ++ tail_of fr c ++ rest = ((pre ++ [37]) ++ w) ++ f ++ tail_of fr c ++ rest)
    by (rewrite <- !app_assoc; reflexivity).
  rewrite E2, <- app_length.
  rewrite (scan_flags_run f ((pre ++ [37]) ++ w) (tail_of fr c ++ rest) _ (pargs s) args1 None cnt flags0 (10, false));
    [|exact Hf|rewrite <- E2, <- E1, Hlen; lia|exact Hst|reflexivity|reflexivity].
  rewrite <- E2, <- E1. rewrite <- app_length.
  set (fl := {| sign := _; hex := _; max_width := _; frac_width := _; slen := _ |}).
  assert (Hz : (if head0 (w ++ f ++ tail_of fr c ++ rest) =? 48 then 48 else 32) = pad_of w).
  { destruct w as [|d w].
    - destruct (head0 _ =? 48) eqn:E; [|reflexivity]. exfalso. apply Hnd. simpl in E. unfold is_digit. lia.
    - simpl. destruct (d =? 48) eqn:E.
      + assert (d = 48) as -> by lia. reflexivity.
      + destruct d as [|d]; [reflexivity|].
        do 6 (destruct d as [d|d|]; try reflexivity). discriminate. }
  rewrite Hz.
  replace (length fmt - length f)%nat with (length pre + (1 + (length w + (length (tail_of fr c) + length rest))))%nat by lia.
  set (fu := (S (length fmt) - length f)%nat).
  assert (Hfu : (length fmt - length f < fu)%nat) by (unfold fu; lia).
  destruct fu as [|fu]; [lia|].
  assert (E3 : fmt = (((pre ++ [37]) ++ w) ++ f) ++ tail_of fr c ++ rest)
    by (rewrite E1, <- !app_assoc; reflexivity).
  destruct fr as [ds|].
  - destruct Hfr as (Hds & Hcd).
    exists (Nat.add (length ((((pre ++ [37]) ++ w) ++ f) ++ [46])) (length ds)).
    split; [|split].
    + cbn [scan_flags]. rewrite E3 at 1. rewrite fmt_at_head. cbn [fbind tail_of app head0 N.eqb Pos.eqb].
      assert (E4 : fmt = ((((pre ++ [37]) ++ w) ++ f) ++ [46]) ++ ds ++ [c] ++ rest).
      { rewrite E3. unfold tail_of. rewrite <- !app_assoc. reflexivity. }
      replace (S (length (((pre ++ [37]) ++ w) ++ f))) with (length ((((pre ++ [37]) ++ w) ++ f) ++ [46]))
        by (rewrite (app_length _ [46]); simpl; lia).
      rewrite E4 at 2. rewrite scan_digits_run; [|exact Hds|exact Hcd|rewrite Hlen; unfold tail_of; rewrite app_length; simpl length; lia].
      reflexivity.
    + assert (E4 : fmt = (((((pre ++ [37]) ++ w) ++ f) ++ [46]) ++ ds) ++ c :: rest).
      { rewrite E3. unfold tail_of. rewrite <- !app_assoc. reflexivity. }
      rewrite E4, <- app_length. apply fmt_at_here.
    + rewrite Hul, !app_length. unfold tail_of. simpl. rewrite ?app_length. simpl. lia.
  - destruct Hfr as (Hcf & Hc46 & _).
    exists (length (((pre ++ [37]) ++ w) ++ f)).
    assert (Hat : fmt_at fmt (length (((pre ++ [37]) ++ w) ++ f)) = FOk c).
    { rewrite E3. unfold tail_of. cbn [app]. apply fmt_at_here. }
    split; [|split].
    + cbn [scan_flags]. rewrite Hat. cbn [fbind]. unfold is_flag in Hcf.
      replace (c =? 46) with false by lia. replace (c =? 117) with false by lia.
      replace (c =? 109) with false by lia. replace (c =? 88) with false by lia.
      replace (c =? 120) with false by lia. replace (c =? 42) with false by lia.
      reflexivity.
    + exact Hat.
    + rewrite Hul, !app_length. unfold tail_of. simpl. rewrite ?app_length. simpl. lia.
Qed.

Lemma step_conv bd pre w f fr c rest s cnt args1 :
  wf_directive (Conv w f fr c) ->
  pfmt s = length pre ->
  take_stars (stars_of f) (pargs s) None = Some (cnt, args1) ->
  exists fw j,
    step bd (pre ++ unparse1 (Conv w f fr c) ++ rest) s 37 =
    convert bd (pre ++ unparse1 (Conv w f fr c) ++ rest) (pm s) (pbuf s) j args1 (pad_of w) (width_of w)
      {| sign := signed_of f; hex := hex_of (base_of f); max_width := max_of f;
         frac_width := fw; slen := count_of cnt |} /\
    fmt_at (pre ++ unparse1 (Conv w f fr c) ++ rest) j = FOk c /\
    S j = (length pre + length (unparse1 (Conv w f fr c)))%nat.
Proof. intros H1 H2 H3. eexists. eapply step_conv_frac; eassumption. Qed.

Lemma land_255 n : N.land n 255 = n mod 256.
Proof. change 255 with (N.ones 8). rewrite N.land_ones. reflexivity. Qed.

Lemma u32_u32 n : u32 n mod 256 = n mod 256.
Proof.
  unfold u32. change (2 ^ 32) with (256 * 2 ^ 24). rewrite N.mod_mul_r by discriminate.
  rewrite (N.mul_comm 256 (_ mod _)), N.mod_add by discriminate. apply N.mod_mod. discriminate.
Qed.

Lemma step_renders bd m0 pre d rest s c0 o args' :
  wfb bd -> wf_directive d -> held m0 (pm s) bd ->
  mapped (pm s) (base bd) (last bd - base bd) ->
  base bd <= pbuf s -> pbuf s < last bd ->
  pfmt s = length pre ->
  fmt_at (pre ++ unparse1 d ++ rest) (length pre) = FOk c0 ->
  renders m0 d (pargs s) o args' ->
  pemits bd s o (length pre + length (unparse1 d)) args' (step bd (pre ++ unparse1 d ++ rest) s c0).
Proof.
  intros Hw Hd Hh Hm H1 H2 Hp Hc0 Hr.
  assert (Hput : forall c j args, pemits bd s [c] (S j) args
            (r' <~ put bd (pm s) (pbuf s) c; FOk {| pm := r'.1; pbuf := r'.2; pfmt := S j; pargs := args |})).
  { intros c j args. apply pemits_done. apply put_emits; assumption. }
  assert (Hconv : forall w f fr c, d = Conv w f fr c -> c0 = 37).
  { intros w f fr c ->. cbn [unparse1 app] in Hc0. rewrite fmt_at_here in Hc0. congruence. }
  inversion Hr; subst; try rewrite (Hconv _ _ _ _ eq_refl) in *; clear Hconv.
  - cbn [unparse1 app] in Hc0. rewrite fmt_at_here in Hc0. injection Hc0 as <-.
    destruct Hd as (Hd1 & Hd2). unfold step. replace (c =? 37) with false by lia.
    pose proof (Hput c (pfmt s) (pargs s)) as H. rewrite Hp in H at 1.
    replace (length pre + length (unparse1 (Lit c)))%nat with (S (length pre)) by (simpl; lia).
    rewrite put_ok in * by assumption. exact H.
  - destruct (step_conv bd pre w f fr c rest s cnt args1 Hd Hp) as (fw & j & -> & Hat & Hj); [assumption|].
    rewrite <- Hj. unfold convert. rewrite Hat. cbn [fbind].
    cbn [sign hex max_width frac_width slen].
    destruct (hex_of_base f) as [Eb Eu].
    match goal with H : numeral _ _ _ _ |- _ => rewrite <- Eb, <- Eu in H; rename H into Hnum end.
    match goal with H : raw_arg _ _ = _ |- _ => rename H into Hraw end.
    match goal with H : int_bits _ _ = _ |- _ => rename H into Hbits end.
    match goal with H : int_value _ _ _ <> _ |- _ => rename H into Hne end.
    assert (Hb : bits = 32 \/ bits = 64).
    { unfold int_bits in Hbits. destruct ((c =? 105) || (c =? 100) || (c =? 68)); [left; congruence|].
      destruct ((c =? 108) || (c =? 76)); [right; congruence|].
      destruct (c =? 122); [|discriminate]. destruct (signed_of f); [left|right]; congruence. }
    assert (Hrange := int_value_range bits (signed_of f) raw Hb Hne).
    assert (H32 : bits = 32 -> forall width,
      emits bd (pm s) (pbuf s)
        ((if (int_value bits (signed_of f) raw <? 0)%Z then [45] else []) ++ padded (pad_of w) width ds)
        (conv_int bd (pm s) (pbuf s) (pad_of w) width (signed_of f) (hex_of (base_of f)) (s32 (u32 raw)) (u32 raw))).
    { intros -> width. apply conv_int_emits; try assumption; [apply u32_lt|].
      rewrite s32_value. destruct (signed_of f); reflexivity. }
    assert (H64 : bits = 64 -> forall width,
      emits bd (pm s) (pbuf s)
        ((if (int_value bits (signed_of f) raw <? 0)%Z then [45] else []) ++ padded (pad_of w) width ds)
        (conv_int bd (pm s) (pbuf s) (pad_of w) width (signed_of f) (hex_of (base_of f)) (s64 (u64 raw)) (u64 raw))).
    { intros -> width. apply conv_int_emits; try assumption; [apply u64_lt|].
      rewrite s64_value. destruct (signed_of f); reflexivity. }
    assert (V32 : bits = 32 -> va32 args1 = FOk (u32 raw, args')).
    { intros ->. destruct args1 as [|[n|n|p|q] args1]; try discriminate. injection Hraw as <- <-. reflexivity. }
    assert (V64 : bits = 64 -> va64 args1 = FOk (u64 raw, args')).
    { intros ->. destruct args1 as [|[n|n|p|q] args1]; try discriminate. injection Hraw as <- <-. reflexivity. }
    unfold int_bits in Hbits.
    destruct (c =? 115) eqn:E115; [exfalso; assert (c = 115) as -> by lia; discriminate|].
    destruct (c =? 122) eqn:E122.
    { replace ((c =? 105) || (c =? 100) || (c =? 68)) with false in Hbits by lia.
      replace ((c =? 108) || (c =? 76)) with false in Hbits by lia.
      replace (c =? 105) with false by lia. cbn [andb].
      destruct (signed_of f) eqn:Es; injection Hbits as <-.
      - rewrite V32 by reflexivity. cbn [fbind]. apply pemits_done. apply H32. reflexivity.
      - rewrite V64 by reflexivity. cbn [fbind]. apply pemits_done. apply H64. reflexivity. }
    destruct (c =? 105) eqn:E105.
    { injection Hbits as <-. rewrite V32 by reflexivity. cbn [fbind andb]. apply pemits_done. apply H32. reflexivity. }
    destruct (c =? 100) eqn:E100.
    { injection Hbits as <-. rewrite V32 by reflexivity. cbn [fbind andb]. apply pemits_done. apply H32. reflexivity. }
    destruct (c =? 108) eqn:E108.
    { replace (c =? 68) with false in Hbits by lia. injection Hbits as <-.
      rewrite V64 by reflexivity. cbn [fbind andb]. apply pemits_done. apply H64. reflexivity. }
    destruct (c =? 68) eqn:E68.
    { injection Hbits as <-. rewrite V32 by reflexivity. cbn [fbind andb]. apply pemits_done. apply H32. reflexivity. }
    destruct (c =? 76) eqn:E76; [|discriminate].
    injection Hbits as <-. rewrite V64 by reflexivity. cbn [fbind andb]. apply pemits_done. apply H64. reflexivity.
  - edestruct (step_conv bd pre w f fr) as (fw & j & -> & Hat & Hj); [eassumption..|].
    rewrite <- Hj. unfold convert. rewrite Hat. cbn [fbind N.eqb Pos.eqb vaptr].
    apply pemits_done.
    pose proof (conv_int_emits bd (pm s) (pbuf s) 48 16 false 2 0 (u64 p) (Z.of_N (u64 p)) ds) as HH.
    replace (Z.of_N (u64 p) <? 0)%Z with false in HH by lia. apply HH; try assumption; try reflexivity.
    + apply u64_lt.
    + pose proof (u64_lt p). rewrite pow64_Z. assert (0 < 2 ^ 63)%Z by reflexivity. lia.
    + replace (Z.to_N (Z.abs (Z.of_N (u64 p)))) with (p mod 2 ^ 64) by (unfold u64; lia). assumption.
  - edestruct (step_conv bd pre w f fr) as (fw & j & -> & Hat & Hj); [eassumption..|].
    rewrite <- Hj. unfold convert. rewrite Hat. cbn [fbind N.eqb Pos.eqb va32].
    rewrite land_255, u32_u32. apply Hput.
  - edestruct (step_conv bd pre w f fr c) as (fw & j & -> & Hat & Hj); [eassumption..|].
    rewrite <- Hj. unfold convert. rewrite Hat. cbn [fbind].
    match goal with H : prints_itself _ |- _ => unfold prints_itself in H; rename H into Hpi end.
    replace (c =? 115) with false by lia. replace (c =? 122) with false by lia.
    replace (c =? 105) with false by lia. replace (c =? 100) with false by lia.
    replace (c =? 108) with false by lia. replace (c =? 68) with false by lia.
    replace (c =? 76) with false by lia. replace (c =? 102) with false by lia.
    replace (c =? 112) with false by lia. replace (c =? 99) with false by lia.
    destruct (c =? 37) eqn:E; [assert (c = 37) as -> by lia|]; apply Hput.
  - edestruct (step_conv bd pre w f fr) as (fw & j & -> & Hat & Hj); [eassumption..|].
    rewrite <- Hj. unfold convert. rewrite Hat. cbn [fbind N.eqb Pos.eqb vaptr slen].
    assert (count_of cnt = 2 ^ 64 - 1) as -> by (destruct cnt; cbn; intuition congruence).
    rewrite N.eqb_refl. apply pemits_done.
    apply (copy_cstr_emits bd m0); try assumption; unfold room; lia.
  - edestruct (step_conv bd pre w f fr) as (fw & j & -> & Hat & Hj); [eassumption..|].
    rewrite <- Hj. unfold convert. rewrite Hat. cbn [fbind N.eqb Pos.eqb vaptr slen count_of].
    replace (_ =? 2 ^ 64 - 1) with false by lia. apply pemits_done.
    apply (copy_counted_emits bd m0); try assumption; try reflexivity; lia.
Qed.

Lemma vloop_full fuel bd fmt s c : fmt_at fmt (pfmt s) = FOk c -> last bd <= pbuf s ->
  vloop fuel bd fmt s = FOk s.
Proof.
  intros Hc Hl. destruct fuel; cbn [vloop]; rewrite Hc; cbn [fbind];
    replace (pbuf s <? last bd) with false by lia; rewrite andb_false_r; reflexivity.
Qed.

Lemma head_directive d rest : wf_directive d -> head0 (unparse1 d ++ rest) <> 0.
Proof. destruct d as [c|w f fr c]; cbn; [tauto|]. intros _. discriminate. Qed.

Lemma vloop_renders bd m0 ds : forall pre fuel s out args',
  wfb bd -> Forall wf_directive ds -> held m0 (pm s) bd ->
  mapped (pm s) (base bd) (last bd - base bd) ->
  base bd <= pbuf s -> pbuf s <= last bd -> (length ds <= fuel)%nat ->
  pfmt s = length pre ->
  renders_all m0 ds (pargs s) out args' ->
  exists m' i' a', vloop fuel bd (pre ++ unparse ds) s =
     FOk {| pm := m'; pbuf := pbuf s + N.of_nat (length (take (room bd (pbuf s)) out)); pfmt := i'; pargs := a' |} /\
     text_written (pm s) (pbuf s) (take (room bd (pbuf s)) out) m'.
Proof.
  induction ds as [|d ds IH]; intros pre fuel s out args' Hw Hds Hh Hm H1 H2 Hfu Hp Hr.
  - inversion Hr; subst. rewrite take_nil. cbn [length N.of_nat].
    exists (pm s), (pfmt s), (pargs s). split; [|apply text_written_nil].
    rewrite N.add_0_r. cbn [unparse map concat].
    destruct s as [m b i a]. cbn in *. subst i.
    destruct fuel; cbn [vloop pfmt]; rewrite fmt_at_head; cbn; reflexivity.
  - inversion Hr as [|? ? ? o ? os ? Hr1 Hr2]; subst. inversion Hds as [|? ? Hd Hds']; subst.
    change (unparse (d :: ds)) with (unparse1 d ++ unparse ds).
    assert (Hat : fmt_at (pre ++ unparse1 d ++ unparse ds) (length pre) = FOk (head0 (unparse1 d ++ unparse ds)))
      by apply fmt_at_head.
    destruct (decide (pbuf s < last bd)) as [Hlt|Hge].
    + destruct fuel as [|fuel]; [simpl in Hfu; lia|].
      cbn [vloop]. rewrite Hp, Hat. cbn [fbind].
      pose proof (head_directive d (unparse ds) Hd) as Hne.
      replace (negb _ && _) with true by lia.
      destruct (step_renders bd m0 pre d (unparse ds) s _ o _ Hw Hd Hh Hm H1 Hlt Hp Hat Hr1) as (m1 & -> & Ht1).
      cbn [fbind].
      set (b1 := pbuf s + N.of_nat (length (take (room bd (pbuf s)) o))) in *.
      assert (Hb1 : pbuf s <= b1 <= last bd) by (unfold b1; rewrite take_length; unfold room; lia).
      assert (E : pre ++ unparse1 d ++ unparse ds = (pre ++ unparse1 d) ++ unparse ds) by apply app_assoc.
      rewrite E.
      destruct (IH (pre ++ unparse1 d) fuel
                  {| pm := m1; pbuf := b1; pfmt := (length pre + length (unparse1 d))%nat; pargs := args1 |}
                  os args') as (m2 & i2 & a2 & Hv & Ht2); cbn [pm pbuf pfmt pargs] in *.
      * exact Hw.
      * exact Hds'.
      * apply (held_written m0 (pm s) bd (pbuf s) (take (room bd (pbuf s)) o) m1); try assumption.
        fold b1. lia.
      * eapply mapped_written; eassumption.
      * lia.
      * lia.
      * simpl in Hfu. lia.
      * rewrite app_length. reflexivity.
      * exact Hr2.
      * rewrite Hv. exists m2, i2, a2.
        destruct (emits_app bd (pm s) (pbuf s) o os (FOk (m1, b1))
                    (fun _ => FOk (m2, b1 + N.of_nat (length (take (room bd b1) os)))) H2)
          as (m3 & Hm3 & Ht3).
        -- exists m1. split; [reflexivity|exact Ht1].
        -- intros m1' b1' [= <- <-] _ _. exists m2. split; [reflexivity|exact Ht2].
        -- cbn [fbind] in Hm3. injection Hm3 as <- Hlen. split; [|exact Ht3].
           do 2 f_equal. exact Hlen.
    + exists (pm s), (pfmt s), (pargs s).
      erewrite vloop_full; [|rewrite Hp; exact Hat|lia].
      replace (room bd (pbuf s)) with 0%nat by (unfold room; lia). cbn [take length N.of_nat].
      rewrite N.add_0_r. split; [destruct s; reflexivity|apply text_written_nil].
Qed.

Lemma length_unparse ds : (length ds <= length (unparse ds))%nat.
Proof.
  induction ds as [|d ds IH]; [simpl; lia|].
  change (unparse (d :: ds)) with (unparse1 d ++ unparse ds). rewrite app_length.
  assert (1 <= length (unparse1 d))%nat by (destruct d; simpl; lia). simpl length at 1. lia.
Qed.

Lemma snprintf_renders m buf max ds args out args' :
  forall m0, Forall wf_directive ds -> renders_all m0 ds args out args' ->
  0 < buf -> buf + max < 2 ^ 64 -> mapped m buf max ->
  (forall x v, m0 !! x = Some v -> m !! x = Some v /\ (x < buf \/ buf + max <= x)) ->
  exists m', snprintf m buf max (unparse ds) args =
               FOk (m', buf + N.of_nat (length (take (N.to_nat max) (out ++ [0])))) /\
             text_written m buf (take (N.to_nat max) (out ++ [0])) m'.
Proof.
  intros m0 Hds Hr H0 H64 Hm Hh. unfold snprintf, vslprintf.
  set (bd := {| base := buf; last := buf + max |}).
  assert (Hw : wfb bd) by (unfold wfb, bd; cbn [base last]; lia).
  destruct (vloop_renders bd m0 ds [] (S (length (unparse ds)))
              {| pm := m; pbuf := buf; pfmt := 0; pargs := args |} out args') as (m1 & i1 & a1 & Hv & Ht1);
    try assumption; try reflexivity; cbn [pm pbuf pfmt pargs bd base last length] in *.
  - replace (buf + max - buf) with max by lia. exact Hm.
  - lia.
  - pose proof (length_unparse ds). lia.
  - cbn [app] in Hv. rewrite Hv. cbn [fbind pm pbuf].
    assert (Er : room bd buf = N.to_nat max) by (unfold room, bd; cbn [last]; lia).
    fold bd in Ht1 |- *. 
    set (b1 := buf + N.of_nat (length (take (room bd buf) out))) in *.
    destruct (emits_app bd m buf out [0] (FOk (m1, b1))
                (fun r => if r.2 <? buf + max then put bd r.1 r.2 0 else FOk r)) as (m2 & Hm2 & Ht2).
    + unfold bd; cbn [last]; lia.
    + exists m1. split; [reflexivity|exact Ht1].
    + intros m1' b1' [= <- <-] Hb1 Hb2. cbn [fst snd].
      destruct (b1 <? buf + max) eqn:E.
      * apply put_emits; unfold bd; cbn [base last]; lia.
      * apply emits_full. unfold bd; cbn [last]; lia.
    + cbn [fbind fst snd] in Hm2. exists m2. rewrite <- Er. split; [exact Hm2|exact Ht2].
Qed.

(** ** The format is not read past its end *)

Definition nofmt {A} (r : fres A) : Prop := r <> FErr FmtOver.

Lemma nofmt_ok {A} (a : A) : nofmt (FOk a).
Proof. discriminate. Qed.
Lemma nofmt_bind {A B} (r : fres A) (k : A -> fres B) :
  nofmt r -> (forall a, r = FOk a -> nofmt (k a)) -> nofmt (fbind r k).
Proof. intros H1 H2. destruct r as [a|e]; [apply H2; reflexivity|]. intros [= ->]. apply H1. reflexivity. Qed.
Lemma put_nofmt bd m b c : nofmt (put bd m b c).
Proof. unfold put. destruct (_ && _); discriminate. Qed.
Lemma va32_nofmt a : nofmt (va32 a).
Proof. destruct a as [|[]]; discriminate. Qed.
Lemma va64_nofmt a : nofmt (va64 a).
Proof. destruct a as [|[]]; discriminate. Qed.
Lemma vaptr_nofmt a : nofmt (vaptr a).
Proof. destruct a as [|[]]; discriminate. Qed.
Lemma vadbl_nofmt a : nofmt (vadbl a).
Proof. destruct a as [|[]]; discriminate. Qed.
Lemma pad_nofmt bd width zero fuel : forall m b len, nofmt (pad fuel bd m b len width zero).
Proof.
  induction fuel as [|f IH]; intros m b len; cbn [pad]; destruct (_ && _); try discriminate.
  apply nofmt_bind; [apply put_nofmt|]. intros [m1 b1] _. apply IH.
Qed.
Lemma puts_nofmt bd cs : forall m b, nofmt (puts bd m b cs).
Proof.
  induction cs as [|c cs IH]; intros m b; cbn [puts]; [discriminate|].
  apply nofmt_bind; [apply put_nofmt|]. intros [m1 b1] _. apply IH.
Qed.
Lemma dec_digits_nofmt p : forall n acc, nofmt (dec_digits p n acc).
Proof. induction p as [|p IH]; intros n acc; cbn [dec_digits]; [discriminate|]. destruct (_ =? 0); [discriminate|apply IH]. Qed.
Lemma hex_digits_nofmt t p : forall n acc, nofmt (hex_digits t p n acc).
Proof.
  induction p as [|p IH]; intros n acc; cbn [hex_digits]; [discriminate|].
  destruct (t !! _); [|discriminate]. destruct (_ =? 0); [discriminate|apply IH].
Qed.
Lemma sprintf_num_nofmt bd m b u z h w : nofmt (sprintf_num bd m b u z h w).
Proof.
  unfold sprintf_num. apply nofmt_bind.
  - destruct (h =? 0); [apply dec_digits_nofmt|]. destruct (h =? 1); apply hex_digits_nofmt.
  - intros ds _. apply nofmt_bind; [apply pad_nofmt|]. intros [m1 b1] _. unfold copy_digits.
    destruct (_ || _); [discriminate|]. destruct (_ <? _); [discriminate|apply puts_nofmt].
Qed.
Lemma conv_int_nofmt bd m b z w sg h i u : nofmt (conv_int bd m b z w sg h i u).
Proof.
  unfold conv_int. apply nofmt_bind.
  - destruct sg; [|discriminate]. destruct (i <? 0)%Z; [|discriminate].
    apply nofmt_bind; [apply put_nofmt|]. intros [m1 b1] _. destruct (_ =? _)%Z; discriminate.
  - intros [[m1 b1] u1] _. apply sprintf_num_nofmt.
Qed.
Lemma conv_float_nofmt bd m b z w fw f : nofmt (conv_float bd m b z w fw f).
Proof.
  assert (Hi : forall x, nofmt (dbl_to_i64 x)).
  { intros x. unfold dbl_to_i64. destruct (dbl_trunc x); [destruct (_ && _)|]; discriminate. }
  assert (Hu : forall x, nofmt (dbl_to_u64 x)).
  { intros x. unfold dbl_to_u64. destruct (dbl_trunc x); [destruct (_ && _)|]; discriminate. }
  unfold conv_float. apply nofmt_bind.
  - destruct (dbl_lt0 f); [|discriminate]. apply nofmt_bind; [apply put_nofmt|]. intros [m1 b1] _. discriminate.
  - intros [[m1 b1] g] _. apply nofmt_bind; [apply Hi|]. intros i _. apply nofmt_bind.
    + destruct (fw =? 0); [discriminate|]. apply nofmt_bind; [apply Hu|]. intros r _. destruct (_ =? _); discriminate.
    + intros [u1 fr] _. apply nofmt_bind; [apply sprintf_num_nofmt|]. intros [m2 b2] _.
      destruct (fw =? 0); [discriminate|]. apply nofmt_bind.
      * destruct (_ <? _); [apply put_nofmt|discriminate].
      * intros [m3 b3] _. apply sprintf_num_nofmt.
Qed.
Lemma copy_cstr_nofmt bd fuel : forall m b p, nofmt (copy_cstr fuel bd m b p).
Proof.
  induction fuel as [|f IH]; intros m b p; cbn [copy_cstr]; destruct (m !! p); try discriminate;
    destruct (_ && _); try discriminate.
  apply nofmt_bind; [apply put_nofmt|]. intros [m1 b1] _. apply IH.
Qed.
Lemma copy_counted_nofmt bd m b p n : nofmt (copy_counted bd m b p n).
Proof. unfold copy_counted. destruct (_ && _); [discriminate|]. destruct (memcpy _ _ _ _); discriminate. Qed.

(** A conversion whose character is within the format reads no further, and leaves the
    format pointer just behind it. *)
Definition at_fmt (j : nat) (r : fres pst) : Prop :=
  match r with FOk s => pfmt s = j | FErr e => e <> FmtOver end.

Lemma at_fmt_done {B} (r : fres B) (k : B -> fres pst) j :
  nofmt r -> (forall a, at_fmt j (k a)) -> at_fmt j (fbind r k).
Proof. intros H1 H2. destruct r as [a|e]; [apply H2|]. cbn. intros ->. apply H1. reflexivity. Qed.

Lemma convert_at bd fmt m b j args z w fl c :
  fmt_at fmt j = FOk c -> at_fmt (S j) (convert bd fmt m b j args z w fl).
Proof.
  intros Hc. unfold convert. rewrite Hc. cbn [fbind].
  repeat (match goal with
    | |- at_fmt _ (if ?b then _ else _) => destruct b
    | |- at_fmt _ (fbind (va32 _) _) => apply at_fmt_done; [apply va32_nofmt|intros [? ?]]
    | |- at_fmt _ (fbind (va64 _) _) => apply at_fmt_done; [apply va64_nofmt|intros [? ?]]
    | |- at_fmt _ (fbind (vaptr _) _) => apply at_fmt_done; [apply vaptr_nofmt|intros [? ?]]
    | |- at_fmt _ (fbind (vadbl _) _) => apply at_fmt_done; [apply vadbl_nofmt|intros [? ?]]
    | |- at_fmt _ (fbind (put _ _ _ _) _) => apply at_fmt_done; [apply put_nofmt|intros [? ?]]
    | |- at_fmt _ (fbind (conv_int _ _ _ _ _ _ _ _ _) _) => apply at_fmt_done; [apply conv_int_nofmt|intros [? ?]]
    | |- at_fmt _ (fbind (conv_float _ _ _ _ _ _ _) _) => apply at_fmt_done; [apply conv_float_nofmt|intros [? ?]]
    | |- at_fmt _ (fbind (if ?b then _ else _) _) => destruct b
    | |- at_fmt _ (fbind (copy_cstr _ _ _ _ _) _) => apply at_fmt_done; [apply copy_cstr_nofmt|intros [? ?]]
    | |- at_fmt _ (fbind (copy_counted _ _ _ _ _) _) => apply at_fmt_done; [apply copy_counted_nofmt|intros [? ?]]
    | |- at_fmt _ (FOk _) => reflexivity
    end).
Qed.

(** The stars fail only for lack of a 64-bit argument. *)
Lemma scan_flags_nostars fs : forall pre rest fuel args cnt0 fl,
  Forall is_flag fs -> (length fs <= fuel)%nat ->
  take_stars (stars_of fs) args cnt0 = None ->
  scan_flags fuel (pre ++ fs ++ rest) (length pre) args fl = FErr BadArg.
Proof.
  induction fs as [|x fs IH]; intros pre rest fuel args cnt0 fl Hfs Hfu Hst; [discriminate|].
  inversion Hfs as [|? ? Hx Hfs']; subst.
  destruct fuel as [|fuel]; [simpl in Hfu; lia|].
  cbn [scan_flags]. change ((x :: fs) ++ rest) with (x :: fs ++ rest). rewrite fmt_at_here. cbn [fbind].
  assert (Epre : pre ++ x :: fs ++ rest = (pre ++ [x]) ++ fs ++ rest) by (rewrite <- app_assoc; reflexivity).
  assert (Elen : S (length pre) = length (pre ++ [x])) by (rewrite app_length; simpl; lia).
  rewrite Elen, Epre. simpl length in Hfu.
  destruct Hx as [->|[->|[->|[->| ->]]]]; cbn -[scan_flags] in *;
    try (apply (IH _ _ _ _ cnt0); try assumption; lia).
  destruct args as [|[n|n|p|q] args]; try reflexivity. cbn [va64 fbind].
  apply (IH _ _ _ _ (Some (n mod 2 ^ 64))); try assumption; lia.
Qed.

Lemma step_conv_nostars bd pre w f fr c rest s :
  wf_directive (Conv w f fr c) -> pfmt s = length pre ->
  take_stars (stars_of f) (pargs s) None = None ->
  step bd (pre ++ unparse1 (Conv w f fr c) ++ rest) s 37 = FErr BadArg.
Proof.
  intros (Hw & Hf & Hc & Hfr) Hpre Hst.
  set (fmt := pre ++ unparse1 (Conv w f fr c) ++ rest).
  assert (E1 : fmt = (pre ++ [37]) ++ w ++ (f ++ tail_of fr c ++ rest)).
  { unfold fmt, tail_of. cbn [unparse1]. rewrite <- !app_assoc. cbn. rewrite <- !app_assoc. reflexivity. }
  assert (L1 : S (pfmt s) = length (pre ++ [37])) by (rewrite Hpre, app_length; simpl; lia).
  assert (Hnd : ~ is_digit (head0 (f ++ tail_of fr c ++ rest))).
  { destruct f as [|x f]; cbn.
    - destruct fr as [ds|]; cbn; [unfold is_digit; lia|]. destruct Hfr as (_ & _ & H). apply H. reflexivity.
    - inversion Hf as [|? ? Hx _]; subst. unfold is_flag, is_digit in *. lia. }
  assert (Hlen : length fmt = (length pre + (1 + (length w + (length f + (length (tail_of fr c) + length rest)))))%nat).
  { rewrite E1, !app_length. simpl. lia. }
  unfold step. cbn [N.eqb Pos.eqb].
  rewrite L1, E1, fmt_at_head. cbn [fbind].
  rewrite scan_digits_run; [|exact Hw|exact Hnd|rewrite <- E1, Hlen; lia].
  cbn [fbind].
  assert (E2 : (pre ++ [37]) ++ w ++ f ++ tail_of fr c ++ rest = ((pre ++ [37]) ++ w) ++ f ++ tail_of fr c ++ rest)
    by (rewrite <- !app_assoc; reflexivity).
  rewrite E2, <- app_length.
  rewrite (scan_flags_nostars f ((pre ++ [37]) ++ w) (tail_of fr c ++ rest) _ (pargs s) None flags0);
    [reflexivity|exact Hf|rewrite <- E2, <- E1, Hlen; lia|exact Hst].
Qed.

Lemma step_at bd pre d rest s c0 :
  wf_directive d -> pfmt s = length pre ->
  fmt_at (pre ++ unparse1 d ++ rest) (length pre) = FOk c0 ->
  at_fmt (length pre + length (unparse1 d)) (step bd (pre ++ unparse1 d ++ rest) s c0).
Proof.
  intros Hd Hp Hc0. destruct d as [c|w f fr c].
  - cbn [unparse1 app] in Hc0. rewrite fmt_at_here in Hc0. injection Hc0 as <-. destruct Hd as (_ & Hd).
    unfold step. replace (c =? 37) with false by lia.
    apply at_fmt_done; [apply put_nofmt|]. intros [m1 b1]. cbn. rewrite Hp. lia.
  - assert (c0 = 37) as ->.
    { cbn [unparse1 app] in Hc0. rewrite fmt_at_here in Hc0. congruence. }
    destruct (take_stars (stars_of f) (pargs s) None) as [[cnt args1]|] eqn:E.
    + destruct (step_conv bd pre w f fr c rest s cnt args1 Hd Hp E) as (fw & j & -> & Hat & <-).
      eapply convert_at. exact Hat.
    + rewrite step_conv_nostars by assumption. discriminate.
Qed.

Lemma vloop_nofmt bd ds : forall pre fuel s,
  Forall wf_directive ds -> pfmt s = length pre -> nofmt (vloop fuel bd (pre ++ unparse ds) s).
Proof.
  induction ds as [|d ds IH]; intros pre fuel s Hds Hp.
  - destruct fuel; cbn [vloop unparse map concat]; rewrite Hp, fmt_at_head; cbn; discriminate.
  - inversion Hds as [|? ? Hd Hds']; subst.
    change (unparse (d :: ds)) with (unparse1 d ++ unparse ds).
    assert (Hat := fmt_at_head pre (unparse1 d ++ unparse ds)).
    destruct fuel as [|fuel]; cbn [vloop]; rewrite Hp, Hat; cbn [fbind];
      (destruct (_ && _); [|discriminate]); [discriminate|].
    pose proof (step_at bd pre d (unparse ds) s _ Hd Hp Hat) as Hs.
    destruct (step bd _ s _) as [s'|e]; cbn [fbind].
    + rewrite app_assoc. apply IH; [exact Hds'|]. cbn in Hs. rewrite Hs, app_length. reflexivity.
    + intros [= ->]. apply Hs. reflexivity.
Qed.

Lemma vslprintf_nofmt m buf lst ds args : Forall wf_directive ds ->
  vslprintf m buf lst (unparse ds) args <> FErr FmtOver.
Proof.
  intros Hds. unfold vslprintf.
  apply (nofmt_bind (vloop _ _ _ _)); [apply (vloop_nofmt _ ds []); [exact Hds|reflexivity]|].
  intros s _. destruct (_ <? _); [apply put_nofmt|discriminate].
Qed.

(** The final store: the text ends with a NUL unless the output filled the buffer. *)
Lemma vslprintf_terminated m buf lst fmt args m' e :
  vslprintf m buf lst fmt args = FOk (m', e) ->
  (buf < e /\ m' !! (e - 1) = Some 0) \/ lst <= e.
Proof.
  unfold vslprintf. destruct (vloop _ _ _ _) as [s|]; [|discriminate]. cbn [fbind].
  destruct (pbuf s <? lst) eqn:E.
  - unfold put. cbn [base last]. destruct ((buf <=? pbuf s) && (pbuf s <? lst)) eqn:E2; [|discriminate].
    intros [= <- <-]. left. split; [lia|]. replace (pbuf s + 1 - 1) with (pbuf s) by lia. apply lookup_insert.
  - intros [= <- <-]. right. lia.
Qed.
