(** Proofs about the console: the screen as a typewriter, the font, printf. *)
From stdpp Require Import gmap.
From Coq Require Import ZArith Lia ZifyBool ZifyNat ZifyN.
From Verif Require Import Base StringModel StringSpec StringProofs PrintfModel PrintfSpec PrintfLoopProofs VesaModel VesaSpec VesaProofs
  ConsoleModel ConsoleSpec.
Local Open Scope Z_scope.
Local Open Scope outcome_scope.
Local Ltac Zify.zify_post_hook ::= Z.div_mod_to_equations.

(** ** The typewriter *)
Lemma put_shows font fc base c k s : shows font fc base k s -> cursor_ok s ->
  exists s', put font fc c s = Ok s' /\ cursor_ok s' /\ shows font fc base (strike c k) s'.
Proof.
  intros (Hx & Hy & Hp) Hc. destruct (put_ok font fc c s Hc) as (s' & E & Hc' & Ha & P).
  exists s'. split; [exact E|]. split; [exact Hc'|].
  unfold strike. rewrite <- Hx, <- Hy. unfold cursor_cell in P. destruct Hc as [Cx Cy]. unfold advance in Ha. change (56 * 180) with 10080 in *.
  change (180 * 56) with 10080 in P.
  destruct (Z.eqb_spec (180 * ypos s + xpos s + 1) 10080) as [E1|E1]; destruct P as [P1 P2].
  - replace (10080 <=? 180 * ypos s + xpos s + 1) with true in Ha by lia. injection Ha as A1 A2.
    split; [exact A1|]. split; [exact A2|]. intros X Y HXY. cbn [drawn fresh_paper existsb]. apply P2. exact HXY.
  - replace (10080 <=? 180 * ypos s + xpos s + 1) with false in Ha by lia. injection Ha as A1 A2.
    split; [exact A1|]. split; [exact A2|]. intros X Y HXY. cbn [drawn fresh_paper]. rewrite P2, Hp by exact HXY.
    change (cursor_cell s) with (180 * ypos s + xpos s).
    destruct (Z.eqb_spec (cell_of X Y) (180 * ypos s + xpos s)); cbn [andb existsb]; [|reflexivity].
    destruct (glyph_dot font c X Y); reflexivity.
Qed.
Lemma put_n_shows font fc base c n : forall k s, shows font fc base k s -> cursor_ok s ->
  exists s', put_n font fc c n s = Ok s' /\ cursor_ok s' /\ shows font fc base (Nat.iter n (strike c) k) s'.
Proof.
  induction n as [|n IH]; intros k s Hk Hs; [exists s; auto|]. cbn [put_n].
  destruct (put_shows font fc base c k s Hk Hs) as (s1 & E1 & C1 & K1). rewrite E1. cbn [obind].
  rewrite Nat.iter_succ_r. apply IH; assumption.
Qed.
Lemma shows_cursor font fc base k s : shows font fc base k s -> (xpos s, ypos s) = (cx k, cy k).
Proof. intros (-> & -> & _). reflexivity. Qed.
Lemma text_shows font fc base text : forall k s, shows font fc base k s -> 0 <= xpos s < 180 -> 0 <= ypos s ->
  stays text (xpos s) (ypos s) = true ->
  exists s', color_print font fc text s = Ok s' /\ shows font fc base (type_text text k) s' /\ 0 <= xpos s' < 180 /\ 0 <= ypos s'.
Proof.
  induction text as [|c text IH]; intros k s Hk Hx Hy Hs; [exists s; auto|].
  cbn [color_print type_text fold_left stays] in *. change (fold_left _ text ?k) with (type_text text k). unfold print1, key.
  destruct (Z.eqb_spec c 10) as [->|H10].
  - cbn [obind]. apply IH; cbn [xpos ypos]; try lia; try exact Hs.
    destruct Hk as (K1 & K2 & K3). split; [reflexivity|]. cbn [ypos cy]. split; [lia|]. exact K3.
  - apply andb_true_iff in Hs as [Hlt Hs]. assert (Hc : cursor_ok s) by (split; lia).
    destruct (Z.eqb_spec c 9) as [->|H9].
    + destruct (put_n_shows font fc base 32 8 k s Hk Hc) as (s1 & E1 & C1 & K1). rewrite E1. cbn [obind].
      destruct (put_shows font fc base 9 _ s1 K1 C1) as (s2 & E2 & C2 & K2). rewrite E2. cbn [obind].
      apply IH; [exact K2|destruct C2; lia..|].
      destruct (put_n_ok font fc 32 8 s Hc) as (s1' & E1' & C1' & A1). rewrite E1 in E1'. injection E1' as <-.
      destruct (put_ok font fc 9 s1 C1) as (s2' & E2' & _ & A2 & _). rewrite E2 in E2'. injection E2' as <-.
      rewrite (advance_n_app 8 1), <- A1 in Hs. cbn [advance_n] in Hs. rewrite <- A2 in Hs. exact Hs.
    + cbn [obind]. destruct (put_shows font fc base c k s Hk Hc) as (s2 & E2 & C2 & K2). rewrite E2. cbn [obind].
      apply IH; [exact K2|destruct C2; lia..|].
      destruct (put_ok font fc c s Hc) as (s2' & E2' & _ & A2 & _). rewrite E2 in E2'. injection E2' as <-.
      cbn [advance_n] in Hs. rewrite <- A2 in Hs. exact Hs.
Qed.
Lemma carriage_shows font fc s : shows font fc s (carriage (xpos s) (ypos s)) s.
Proof. split; [reflexivity|]. split; [reflexivity|]. intros X Y _. reflexivity. Qed.

(** Each place is struck at most once. *)
Definition tidy (k : console) : Prop :=
  0 <= cx k < 180 /\ 0 <= cy k /\ (forall n, length (drawn k n) <= 1)%nat /\ (forall n, 180 * cy k + cx k <= n -> drawn k n = []).
Lemma strike_tidy c k : tidy k -> tidy (strike c k).
Proof.
  intros (Hx & Hy & H1 & H2). unfold strike. destruct (Z.eqb_spec (180 * cy k + cx k + 1) (56 * 180)).
  - split; [cbn; lia|]. split; [cbn; lia|]. cbn [drawn]. split; intros; [cbn; lia|reflexivity].
  - unfold tidy. cbn [cx cy drawn]. split; [lia|]. split; [lia|]. split.
    + intros n'. destruct (Z.eqb_spec n' (180 * cy k + cx k)) as [->|]; [|apply H1]. rewrite H2 by lia. cbn. lia.
    + intros n' Hn. destruct (Z.eqb_spec n' (180 * cy k + cx k)); [lia|]. apply H2. lia.
Qed.
Lemma key_tidy c k : tidy k -> tidy (key c k).
Proof.
  intros H. unfold key. destruct (c =? 10).
  - destruct H as (Hx & Hy & H1 & H2). unfold tidy. cbn [cx cy drawn]. split; [lia|]. split; [lia|]. split; [exact H1|].
    intros n Hn. apply H2. lia.
  - destruct (c =? 9); [|apply strike_tidy; exact H]. apply strike_tidy.
    generalize 8%nat as n. induction n as [|n IH]; [exact H|]. cbn [Nat.iter]. apply strike_tidy. exact IH.
Qed.
Lemma type_tidy text : forall k, tidy k -> tidy (type_text text k).
Proof.
  induction text as [|c text IH]; intros k H; [exact H|]. cbn [type_text fold_left]. apply IH, key_tidy, H.
Qed.
Lemma carriage_tidy x y : 0 <= x < 180 -> 0 <= y -> tidy (carriage x y).
Proof. intros Hx Hy. unfold tidy. cbn [carriage cx cy drawn]. repeat split; try lia; intros; cbn; auto; lia. Qed.
Lemma struck_once text x y n : 0 <= x < 180 -> 0 <= y -> (length (drawn (type_text text (carriage x y)) n) <= 1)%nat.
Proof. intros Hx Hy. apply type_tidy, carriage_tidy; assumption. Qed.

(** ** The font *)
Lemma glyph_count : length printable_glyphs = 94%nat.
Proof. reflexivity. Qed.
Lemma font_no_ink c i : ~ ink c -> font c i = 0.
Proof.
  intros H. unfold font. assert (E : nth (Z.to_nat c) font_ascii [] = blank_glyph \/ nth (Z.to_nat c) font_ascii [] = []).
  { unfold font_ascii. unfold ink in H. destruct (decide (Z.to_nat c < 33)%nat) as [H1|H1].
    - left. rewrite app_nth1 by (rewrite replicate_length; lia). apply nth_lookup_Some. apply lookup_replicate. split; [reflexivity|lia].
    - rewrite app_nth2 by (rewrite replicate_length; lia). rewrite replicate_length.
      rewrite app_nth2 by (rewrite glyph_count; lia). rewrite glyph_count.
      destruct (decide (Z.to_nat c < 256)%nat) as [H2|H2].
      + left. apply nth_lookup_Some. apply lookup_replicate. split; [reflexivity|lia].
      + right. apply nth_overflow. rewrite replicate_length. lia. }
  destruct E as [-> | ->].
  - unfold blank_glyph. generalize (Z.to_nat i) as j. intros j. do 16 (destruct j as [|j]; [reflexivity|]). destruct j; reflexivity.
  - destruct (Z.to_nat i); reflexivity.
Qed.
Definition row_ok (r : list Z) : bool := (length r =? 16)%nat && forallb (fun b => (0 <=? b) && (b <? 256)) r.
Lemma glyphs_ok : forallb row_ok printable_glyphs = true.
Proof. vm_compute. reflexivity. Qed.
Lemma glyphs_distinct : bool_decide (NoDup (blank_glyph :: printable_glyphs)) = true.
Proof. vm_compute. reflexivity. Qed.
Lemma font_ink c i : ink c -> exists r, printable_glyphs !! Z.to_nat (c - 33) = Some r /\ font c i = nth (Z.to_nat i) r 0.
Proof.
  intros H. unfold ink in H. destruct (lookup_lt_is_Some_2 printable_glyphs (Z.to_nat (c - 33))) as [r Hr].
  { rewrite glyph_count. lia. }
  exists r. split; [exact Hr|]. unfold font, font_ascii. rewrite app_nth2 by (rewrite replicate_length; lia).
  rewrite replicate_length. rewrite app_nth1 by (rewrite glyph_count; lia).
  replace (Z.to_nat c - 33)%nat with (Z.to_nat (c - 33)) by lia. rewrite (nth_lookup_Some _ _ _ _ Hr). reflexivity.
Qed.
Lemma row_range r i : row_ok r = true -> 0 <= nth i r 0 < 256.
Proof.
  intros H. apply andb_true_iff in H as [_ H]. rewrite forallb_forall in H. destruct (nth_in_or_default i r 0) as [Hi|E]; [|rewrite E; lia].
  apply H in Hi. lia.
Qed.
Lemma font_range c i : 0 <= font c i < 256.
Proof.
  assert (ink c \/ ~ ink c) as [H|H] by (unfold ink; lia).
  - destruct (font_ink c i H) as (r & Hr & ->). apply row_range. pose proof glyphs_ok as G. rewrite forallb_forall in G.
    apply G. apply elem_of_list_In. eapply elem_of_list_lookup_2, Hr.
  - rewrite font_no_ink by exact H. lia.
Qed.
Lemma rows_eq r1 r2 : row_ok r1 = true -> row_ok r2 = true -> (forall i, (i < 16)%nat -> nth i r1 0 = nth i r2 0) -> r1 = r2.
Proof.
  intros H1 H2 H. apply andb_true_iff in H1 as [L1 _], H2 as [L2 _]. apply (nth_ext _ _ 0 0); [lia|]. intros i Hi. apply H. lia.
Qed.
(** Two characters with ink and the same glyph are the same; no glyph with ink is blank. *)
Lemma font_inj c1 c2 : ink c1 -> ink c2 -> (forall i, 0 <= i < 16 -> font c1 i = font c2 i) -> c1 = c2.
Proof.
  intros H1 H2 H. destruct (font_ink c1 0 H1) as (r1 & R1 & _), (font_ink c2 0 H2) as (r2 & R2 & _).
  pose proof glyphs_ok as G. rewrite forallb_forall in G.
  assert (G1 : row_ok r1 = true) by (apply G, elem_of_list_In; eapply elem_of_list_lookup_2, R1).
  assert (G2 : row_ok r2 = true) by (apply G, elem_of_list_In; eapply elem_of_list_lookup_2, R2).
  assert (E : r1 = r2).
  { apply rows_eq; [assumption..|]. intros i Hi. specialize (H (Z.of_nat i) ltac:(lia)).
    destruct (font_ink c1 (Z.of_nat i) H1) as (r1' & R1' & F1), (font_ink c2 (Z.of_nat i) H2) as (r2' & R2' & F2).
    rewrite R1 in R1'. rewrite R2 in R2'. injection R1' as <-. injection R2' as <-.
    rewrite F1, F2, Nat2Z.id in H. exact H. }
  subst r2. pose proof glyphs_distinct as D. apply bool_decide_eq_true in D. apply NoDup_cons in D as [_ D].
  pose proof (NoDup_lookup _ _ _ _ D R1 R2). unfold ink in *. lia.
Qed.
Lemma font_not_blank c : ink c -> ~ (forall i, 0 <= i < 16 -> font c i = 0).
Proof.
  intros H1 H. destruct (font_ink c 0 H1) as (r1 & R1 & _).
  pose proof glyphs_ok as G. rewrite forallb_forall in G.
  assert (G1 : row_ok r1 = true) by (apply G, elem_of_list_In; eapply elem_of_list_lookup_2, R1).
  assert (E : r1 = blank_glyph).
  { apply rows_eq; [assumption|reflexivity|]. intros i Hi. specialize (H (Z.of_nat i) ltac:(lia)).
    destruct (font_ink c (Z.of_nat i) H1) as (r1' & R1' & F1). rewrite R1 in R1'. injection R1' as <-.
    rewrite F1, Nat2Z.id in H. rewrite H. do 16 (destruct i as [|i]; [reflexivity|]). lia. }
  subst r1. pose proof glyphs_distinct as D. apply bool_decide_eq_true in D. apply NoDup_cons in D as [D _].
  apply D. eapply elem_of_list_lookup_2, R1.
Qed.
Lemma bits_rows a b : 0 <= a < 256 -> 0 <= b < 256 -> (forall j, 0 <= j < 8 -> Z.testbit a (7 - j) = Z.testbit b (7 - j)) -> a = b.
Proof.
  intros Ha Hb H. apply Z.bits_inj'. intros n Hn. destruct (Z.ltb_spec n 8) as [H8|H8].
  - specialize (H (7 - n) ltac:(lia)). replace (7 - (7 - n)) with n in H by lia. exact H.
  - assert (S : forall z, 0 <= z < 256 -> Z.testbit z n = false).
    { intros z Hz. destruct (Z.eq_dec z 0) as [->|]; [apply Z.bits_0|]. apply Z.bits_above_log2; [lia|].
      apply (Z.lt_le_trans _ 8); [|lia]. apply Z.log2_lt_pow2; lia. }
    rewrite !S by assumption. reflexivity.
Qed.

(** What can be read in a place is determined by its pixels. *)
Definition row_of (l : list Z) (i : Z) : Z := match l with [c] => font c i | _ => 0 end.
Lemma row_of_seen l : (length l <= 1)%nat -> match seen l with Some c => l = [c] /\ ink c | None => forall i, row_of l i = 0 end.
Proof.
  intros H. destruct l as [|c [|? ?] ]; cbn [seen row_of length] in *; [auto| |lia].
  destruct ((33 <=? c) && (c <=? 126)) eqn:E; [split; [reflexivity|unfold ink; lia]|].
  intros i. apply font_no_ink. unfold ink. lia.
Qed.
Lemma same_seen l1 l2 : (length l1 <= 1)%nat -> (length l2 <= 1)%nat -> (forall i, 0 <= i < 16 -> row_of l1 i = row_of l2 i) -> seen l1 = seen l2.
Proof.
  intros H1 H2 H. pose proof (row_of_seen l1 H1) as S1. pose proof (row_of_seen l2 H2) as S2.
  destruct (seen l1) as [c1|], (seen l2) as [c2|]; [| | |reflexivity].
  - destruct S1 as [-> I1], S2 as [-> I2]. f_equal. apply font_inj; assumption.
  - destruct S1 as [-> I1]. exfalso. apply (font_not_blank c1 I1). intros i Hi. rewrite <- (S2 i). apply H. exact Hi.
  - destruct S2 as [-> I2]. exfalso. apply (font_not_blank c2 I2). intros i Hi. rewrite <- (S1 i). symmetry. apply H. exact Hi.
Qed.
Lemma legible fc base k1 k2 s1 s2 : fc <> BLACK -> (forall X Y, on_screen X Y -> pixel base X Y = BLACK) ->
  tidy k1 -> tidy k2 -> shows font fc base k1 s1 -> shows font fc base k2 s2 ->
  (forall X Y, on_screen X Y -> pixel s1 X Y = pixel s2 X Y) ->
  forall n, 0 <= n < 180 * 56 -> seen (drawn k1 n) = seen (drawn k2 n).
Proof.
  intros Hfc Hb (_ & _ & T1 & _) (_ & _ & T2 & _) (_ & _ & P1) (_ & _ & P2) HP n Hn. apply same_seen; [apply T1|apply T2|].
  assert (D : forall l i j, (length l <= 1)%nat -> 0 <= i < 16 -> 0 <= j < 8 ->
    existsb (fun c => glyph_dot font c (8 * (n mod 180) + j) (16 * (n / 180) + i)) l = Z.testbit (row_of l i) (7 - j)).
  { intros l i j Hl Hi Hj. unfold glyph_dot.
    replace ((16 * (n / 180) + i) mod 16) with i by lia. replace ((8 * (n mod 180) + j) mod 8) with j by lia.
    destruct l as [|c [|? ?] ]; cbn [existsb row_of length] in *; [symmetry; apply Z.bits_0|apply orb_false_r|lia]. }
  intros i Hi. apply bits_rows.
  - unfold row_of. destruct (drawn k1 n) as [|? [|? ?] ]; try lia. apply font_range.
  - unfold row_of. destruct (drawn k2 n) as [|? [|? ?] ]; try lia. apply font_range.
  - intros j Hj. rewrite <- !D by (auto using T1, T2).
    assert (On : on_screen (8 * (n mod 180) + j) (16 * (n / 180) + i)) by (unfold on_screen; lia).
    pose proof (HP _ _ On) as HP'. rewrite P1, P2 in HP' by exact On.
    replace (cell_of (8 * (n mod 180) + j) (16 * (n / 180) + i)) with n in HP' by (unfold cell_of; lia).
    rewrite !Hb in HP' by exact On.
    destruct (existsb _ (drawn k1 n)), (existsb _ (drawn k2 n)); try reflexivity;
    destruct (fresh_paper k1), (fresh_paper k2); congruence.
Qed.
