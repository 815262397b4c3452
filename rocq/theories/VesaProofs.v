(** Proofs about the text console. *)
From stdpp Require Import list.
From Coq Require Import ZArith Lia ZifyBool ZifyNat ZifyN.
From Verif Require Import Base VesaModel VesaSpec.
Local Open Scope Z_scope.
Local Open Scope outcome_scope.
Local Ltac Zify.zify_post_hook ::= Z.div_mod_to_equations.

Definition inb (p : Z) : bool := (0 <=? p) && (p <? 1296000).
Lemma write_ok p v m : inb p = true -> write_pixel p v m = Ok (fun q => if q =? p then v else m q).
Proof. intros H. unfold write_pixel. change (screen_width * screen_height) with 1296000. unfold inb in H. rewrite H. reflexivity. Qed.
Lemma write_ub p v m : inb p = false -> write_pixel p v m = UB.
Proof. intros H. unfold write_pixel. change (screen_width * screen_height) with 1296000. unfold inb in H. rewrite H. reflexivity. Qed.

(** ** A row of a glyph *)
Lemma bit_test byte j : 0 <= j < 8 -> negb (Z.land byte (Z.shiftr 0x100 (j + 1)) =? 0) = Z.testbit byte (7 - j).
Proof.
  intros Hj. replace (Z.shiftr 0x100 (j + 1)) with (2 ^ (7 - j)).
  - destruct (Z.testbit byte (7 - j)) eqn:E.
    + destruct (Z.eqb_spec (Z.land byte (2 ^ (7 - j))) 0) as [H|]; [|reflexivity].
      apply (f_equal (fun z => Z.testbit z (7 - j))) in H. rewrite Z.land_spec, Z.bits_0, E, Z.pow2_bits_true in H by lia.
      discriminate.
    + replace (Z.land byte (2 ^ (7 - j))) with 0; [reflexivity|]. symmetry. apply Z.bits_inj. intros i.
      rewrite Z.land_spec, Z.bits_0. destruct (Z.eq_dec i (7 - j)) as [->|Hn].
      * rewrite E. reflexivity.
      * rewrite Z.pow2_bits_false by lia. apply andb_false_r.
  - assert (j = 0 \/ j = 1 \/ j = 2 \/ j = 3 \/ j = 4 \/ j = 5 \/ j = 6 \/ j = 7) as H by lia.
    destruct H as [-> | [-> | [-> | [-> | [-> | [-> | [-> | ->] ] ] ] ] ] ]; reflexivity.
Qed.

Definition row_hit (byte addr : Z) (js : list Z) (q : Z) : bool :=
  existsb (fun j => (q =? addr + j) && Z.testbit byte (7 - j)) js.
Lemma row_ok fc byte addr js : Forall (fun j => 0 <= j < 8) js -> forall m,
  forallb (fun j => inb (addr + j)) js = true ->
  exists m', for_each (fun j m =>
    let bits := Z.shiftr 0x100 (j + 1) in
    if negb (Z.land byte bits =? 0) then write_pixel (addr + j) fc m
    else write_pixel (addr + j) (m (addr + j)) m) js m = Ok m' /\
  forall q, m' q = if row_hit byte addr js q then fc else m q.
Proof.
  induction 1 as [|j js Hj _ IH]; intros m Hb.
  - exists m. split; [reflexivity|]. intros q. reflexivity.
  - cbn [forallb] in Hb. apply andb_true_iff in Hb as [Hb1 Hb2].
    cbn [for_each]. cbv zeta. rewrite bit_test by exact Hj.
    destruct (Z.testbit byte (7 - j)) eqn:E.
    + rewrite write_ok by exact Hb1. cbn [obind].
      destruct (IH (fun q => if q =? addr + j then fc else m q) Hb2) as (m' & E1 & E2).
      exists m'. split; [exact E1|]. intros q. rewrite E2. cbn [row_hit existsb]. rewrite E, andb_true_r.
      fold (row_hit byte addr js q). destruct (row_hit byte addr js q), (q =? addr + j); reflexivity.
    + rewrite write_ok by exact Hb1. cbn [obind].
      destruct (IH (fun q => if q =? addr + j then m (addr + j) else m q) Hb2) as (m' & E1 & E2).
      exists m'. split; [exact E1|]. intros q. rewrite E2. cbn [row_hit existsb]. rewrite E, andb_false_r.
      fold (row_hit byte addr js q). destruct (row_hit byte addr js q); [reflexivity|].
      destruct (Z.eqb_spec q (addr + j)) as [->|]; reflexivity.
Qed.
Lemma row_ub fc byte addr js : forall m,
  forallb (fun j => inb (addr + j)) js = false ->
  for_each (fun j m =>
    let bits := Z.shiftr 0x100 (j + 1) in
    if negb (Z.land byte bits =? 0) then write_pixel (addr + j) fc m
    else write_pixel (addr + j) (m (addr + j)) m) js m = UB.
Proof.
  induction js as [|j js IH]; intros m Hb; [discriminate|]. cbn [forallb] in Hb. cbn [for_each]. cbv zeta.
  destruct (inb (addr + j)) eqn:E.
  - destruct (negb _); rewrite write_ok by exact E; cbn [obind]; apply IH; exact Hb.
  - destruct (negb _); rewrite write_ub by exact E; reflexivity.
Qed.

(** ** A glyph *)
Definition glyph_hit (font : Z -> Z -> Z) (c : Z) (base : Z) (is : list Z) (q : Z) : bool :=
  existsb (fun i => row_hit (font c i) (1440 * i + base) z8 q) is.
Lemma z8_range : Forall (fun j => 0 <= j < 8) z8.
Proof. repeat constructor; lia. Qed.
Lemma put_row_ok fc byte addr m :
  forallb (fun j => inb (addr + j)) z8 = true ->
  exists m', put_row fc byte addr m = Ok m' /\ forall q, m' q = if row_hit byte addr z8 q then fc else m q.
Proof. exact (row_ok fc byte addr z8 z8_range m). Qed.
Lemma put_row_ub fc byte addr m : forallb (fun j => inb (addr + j)) z8 = false -> put_row fc byte addr m = UB.
Proof. exact (row_ub fc byte addr z8 m). Qed.
Lemma rows_ok font fc c y x is : forall m,
  forallb (fun i => forallb (fun j => inb (screen_width * (y + i) + x + j)) z8) is = true ->
  exists m', for_each (fun i m => put_row fc (font c i) (screen_width * (y + i) + x) m) is m = Ok m' /\
  forall q, m' q = if glyph_hit font c (1440 * y + x) is q then fc else m q.
Proof.
  induction is as [|i is IH]; intros m Hb.
  - exists m. split; [reflexivity|]. intros q. reflexivity.
  - cbn [forallb] in Hb. apply andb_true_iff in Hb as [Hb1 Hb2]. cbn [for_each].
    destruct (put_row_ok fc (font c i) (screen_width * (y + i) + x) m Hb1) as (m1 & E1 & E2).
    rewrite E1. cbn [obind].
    destruct (IH m1 Hb2) as (m' & E3 & E4). exists m'. split; [exact E3|].
    intros q. rewrite E4, E2. unfold glyph_hit. cbn [existsb].
    replace (screen_width * (y + i) + x) with (1440 * i + (1440 * y + x)) by (unfold screen_width; lia).
    destruct (existsb _ is), (row_hit _ _ _ _); reflexivity.
Qed.
Lemma rows_ub (font : Z -> Z -> Z) fc c y x is : forall m,
  forallb (fun i => forallb (fun j => inb (screen_width * (y + i) + x + j)) z8) is = false ->
  for_each (fun i m => put_row fc (font c i) (screen_width * (y + i) + x) m) is m = UB.
Proof.
  induction is as [|i is IH]; intros m Hb; [discriminate|]. cbn [forallb] in Hb. cbn [for_each].
  destruct (forallb (fun j => inb (screen_width * (y + i) + x + j)) z8) eqn:E.
  - destruct (put_row_ok fc (font c i) (screen_width * (y + i) + x) m E) as (m1 & E1 & E2).
    rewrite E1. cbn [obind]. apply IH. exact Hb.
  - rewrite put_row_ub by exact E. reflexivity.
Qed.

Lemma glyph_hit_spec font c x y X Y :
  0 <= x < 180 -> 0 <= y < 56 -> on_screen X Y ->
  glyph_hit font c (1440 * (y * 16) + x * 8) z16 (1440 * Y + X) =
  (cell_of X Y =? 180 * y + x) && glyph_dot font c X Y.
Proof.
  intros Hx Hy [HX HY]. unfold cell_of, glyph_dot.
  destruct (Z.eqb_spec (180 * (Y / 16) + X / 8) (180 * y + x)) as [Hc|Hc].
  - assert (Y / 16 = y /\ X / 8 = x) as [HYy HXx] by lia. cbn [andb].
    assert (Hrow : Y = 16 * y + Y mod 16) by lia. assert (Hcol : X = 8 * x + X mod 8) by lia.
    assert (HY16 : 0 <= Y mod 16 < 16) by lia. assert (HX8 : 0 <= X mod 8 < 8) by lia.
    set (r := Y mod 16) in *. set (b := X mod 8) in *. clearbody r b. subst Y X.
    apply eq_true_iff_eq. unfold glyph_hit, row_hit. rewrite existsb_exists. split.
    + intros (i & Hi & Hj). rewrite existsb_exists in Hj. destruct Hj as (j & Hj & Ht).
      apply andb_true_iff in Ht as [Hq Ht]. 
      assert (0 <= i < 16) by (cbn in Hi; lia). assert (0 <= j < 8) by (cbn in Hj; lia).
      assert (i = r /\ j = b) as [-> ->] by lia. exact Ht.
    + intros Ht. exists r. split; [cbn; lia|]. rewrite existsb_exists. exists b. split; [cbn; lia|].
      rewrite Ht, andb_true_r. lia.
  - cbn [andb]. apply not_true_iff_false. unfold glyph_hit, row_hit. rewrite existsb_exists.
    intros (i & Hi & Hj). rewrite existsb_exists in Hj. destruct Hj as (j & Hj & Ht).
    apply andb_true_iff in Ht as [Hq Ht].
    assert (0 <= i < 16) by (cbn in Hi; lia). assert (0 <= j < 8) by (cbn in Hj; lia).
    apply Hc. assert (Y = 16 * y + i /\ X = 8 * x + j) as [-> ->] by lia. lia.
Qed.

Lemma cell_inb x y : 0 <= x < 180 -> 0 <= y ->
  forallb (fun i => forallb (fun j => inb (screen_width * (y * height_char + i) + x * width_char + j)) z8) z16 =
  (y <? 56).
Proof.
  intros Hx Hy. unfold screen_width, height_char, width_char, inb.
  apply eq_true_iff_eq. rewrite forallb_forall. split.
  - intros H. specialize (H 15 ltac:(cbn; lia)). rewrite forallb_forall in H. specialize (H 7 ltac:(cbn; lia)). lia.
  - intros H i Hi. rewrite forallb_forall. intros j Hj.
    assert (0 <= i < 16) by (cbn in Hi; lia). assert (0 <= j < 8) by (cbn in Hj; lia). lia.
Qed.

Lemma put_char_ok font fc c s :
  cursor_ok s -> exists m, put_char font fc c s = Ok m /\
  forall X Y, on_screen X Y ->
    m (1440 * Y + X) = if (cell_of X Y =? cursor_cell s) && glyph_dot font c X Y then fc else pixel s X Y.
Proof.
  intros [Hx Hy]. unfold put_char. cbv zeta.
  destruct (rows_ok font fc c (ypos s * height_char) (xpos s * width_char) z16 (pix s)) as (m & E1 & E2).
  { rewrite cell_inb by lia. lia. }
  exists m. split; [exact E1|]. intros X Y HXY. rewrite E2. unfold height_char, width_char.
  rewrite glyph_hit_spec by (try assumption; lia). reflexivity.
Qed.
Lemma put_char_ub font fc c s : 0 <= xpos s < 180 -> 56 <= ypos s -> put_char font fc c s = UB.
Proof.
  intros Hx Hy. unfold put_char. cbv zeta. apply rows_ub. rewrite cell_inb by lia. lia.
Qed.

(** ** Clear *)
Lemma clear_ok m : exists m', clear_pixels m = Ok m' /\ forall p, m' p = if inb p then 0 else m p.
Proof.
  unfold clear_pixels. change (screen_height * screen_width / 2) with 648000.
  assert (H : forall n, (n <= 648000)%N -> exists m', N.iter n clear_step (Ok (0, m)) = Ok (Z.of_N n, m') /\
    forall p, m' p = if (0 <=? p) && (p <? 2 * Z.of_N n) then 0 else m p).
  { intros n. induction n as [|n IH] using N.peano_ind; intros Hn.
    - exists m. split; [reflexivity|]. intros p. replace ((0 <=? p) && (p <? 2 * Z.of_N 0)) with false by lia. reflexivity.
    - destruct IH as (m' & E1 & E2); [lia|]. rewrite N.iter_succ, E1. unfold clear_step. cbn [obind].
      rewrite write_ok by (unfold inb; lia). cbn [obind]. rewrite write_ok by (unfold inb; lia). cbn [obind].
      eexists. split; [repeat f_equal; lia|]. intros p. cbv beta. rewrite E2.
      destruct (Z.eqb_spec p (2 * Z.of_N n + 1)).
      { replace ((0 <=? p) && (p <? 2 * Z.of_N (N.succ n))) with true by lia. reflexivity. }
      destruct (Z.eqb_spec p (2 * Z.of_N n)).
      { replace ((0 <=? p) && (p <? 2 * Z.of_N (N.succ n))) with true by lia. reflexivity. }
      replace ((0 <=? p) && (p <? 2 * Z.of_N (N.succ n))) with ((0 <=? p) && (p <? 2 * Z.of_N n)) by lia.
      reflexivity. }
  destruct (H (Z.to_N 648000) ltac:(lia)) as (m' & E1 & E2). rewrite E1. cbn [obind].
  exists m'. split; [reflexivity|]. intros p. rewrite E2. unfold inb.
  replace (2 * Z.of_N (Z.to_N 648000)) with 1296000 by lia. reflexivity.
Qed.

(** ** One character *)
Lemma put_ok font fc c s :
  cursor_ok s ->
  exists s', put font fc c s = Ok s' /\ cursor_ok s' /\
  (xpos s', ypos s') = advance (xpos s) (ypos s) /\
  if cursor_cell s + 1 =? 180 * 56
  then cursor_cell s' = 0 /\ forall X Y, on_screen X Y -> pixel s' X Y = BLACK
  else cursor_cell s' = cursor_cell s + 1 /\
       forall X Y, on_screen X Y ->
         pixel s' X Y = if (cell_of X Y =? cursor_cell s) && glyph_dot font c X Y then fc else pixel s X Y.
Proof.
  intros Hc. destruct (put_char_ok font fc c s Hc) as (m & E1 & E2). unfold put. rewrite E1. cbn [obind].
  destruct Hc as [Hx Hy]. change (screen_width / width_char) with 180. change (screen_height / height_char) with 56.
  destruct s as [x y p]. unfold cursor_cell, cursor_ok in *. cbn [xpos ypos pix] in *.
  destruct (Z.leb_spec 180 (x + 1)) as [H1|H1].
  - destruct (Z.leb_spec 56 (y + 1)) as [H2|H2].
    + unfold clear. cbn [pix]. destruct (clear_ok m) as (m' & E3 & E4). rewrite E3. cbn [obind].
      eexists. split; [reflexivity|]. cbn [xpos ypos].
      replace (180 * y + x + 1 =? 180 * 56) with true by lia. split; [lia|].
      split; [unfold advance; replace (56 * 180 <=? 180 * y + x + 1) with true by lia; reflexivity|]. split; [lia|].
      intros X Y [HX HY]. unfold pixel. cbn [pix]. rewrite E4. replace (inb (1440 * Y + X)) with true by (unfold inb; lia). reflexivity.
    + eexists. split; [reflexivity|]. cbn [xpos ypos].
      replace (180 * y + x + 1 =? 180 * 56) with false by lia. split; [lia|].
      split; [unfold advance; replace (56 * 180 <=? 180 * y + x + 1) with false by lia; f_equal; lia|]. split; [lia|].
      intros X Y HXY. unfold pixel. cbn [pix]. rewrite E2 by exact HXY. reflexivity.
  - replace (56 <=? y) with false by lia. eexists. split; [reflexivity|]. cbn [xpos ypos].
    replace (180 * y + x + 1 =? 180 * 56) with false by lia. split; [lia|].
    split; [unfold advance; replace (56 * 180 <=? 180 * y + x + 1) with false by lia; f_equal; lia|]. split; [lia|].
    intros X Y HXY. unfold pixel. cbn [pix]. rewrite E2 by exact HXY. reflexivity.
Qed.
Lemma put_ub font fc c s : 0 <= xpos s < 180 -> 56 <= ypos s -> put font fc c s = UB.
Proof. intros Hx Hy. unfold put. rewrite put_char_ub by assumption. reflexivity. Qed.

Lemma put_n_ok font fc c n : forall s, cursor_ok s ->
  exists s', put_n font fc c n s = Ok s' /\ cursor_ok s' /\ (xpos s', ypos s') = advance_n n (xpos s) (ypos s).
Proof.
  induction n as [|n IH]; intros s Hs.
  - exists s. cbn. auto.
  - destruct (put_ok font fc c s Hs) as (s1 & E1 & H1 & A1 & _). cbn [put_n advance_n]. rewrite E1, <- A1. cbn [obind].
    apply IH. exact H1.
Qed.

Lemma advance_n_app a b : forall x y, advance_n (a + b) x y = let '(x, y) := advance_n a x y in advance_n b x y.
Proof.
  induction a as [|a IH]; intros x y; [reflexivity|]. cbn [Nat.add advance_n]. destruct (advance x y) as [x1 y1]. apply IH.
Qed.

(** ** Texts *)
Lemma print_stays font fc text : forall s, 0 <= xpos s < 180 -> 0 <= ypos s ->
  if stays text (xpos s) (ypos s)
  then exists s', color_print font fc text s = Ok s'
  else color_print font fc text s = UB.
Proof.
  induction text as [|c text IH]; intros s Hx Hy.
  - cbn. eexists. reflexivity.
  - cbn [stays color_print]. unfold print1. destruct (Z.eqb_spec c 10) as [->|H10].
    + cbn [obind]. apply (IH {| xpos := 0; ypos := ypos s + 1; pix := pix s |}); cbn [xpos ypos]; lia.
    + destruct (Z.ltb_spec (ypos s) 56) as [Hlt|Hge]; cbn [andb].
      * assert (Hs : cursor_ok s) by (split; lia).
        destruct (Z.eqb_spec c 9) as [->|H9].
        -- destruct (put_n_ok font fc 32 8 s Hs) as (s1 & E1 & H1 & A1). rewrite E1. cbn [obind].
           destruct (put_ok font fc 9 s1 H1) as (s2 & E2 & H2 & A2 & _). rewrite E2. cbn [obind].
           rewrite (advance_n_app 8 1), <- A1. cbn [advance_n]. rewrite <- A2. apply IH; destruct H2; lia.
        -- cbn [obind]. destruct (put_ok font fc c s Hs) as (s2 & E2 & H2 & A2 & _). rewrite E2. cbn [obind].
           cbn [advance_n]. rewrite <- A2. apply IH; destruct H2; lia.
      * destruct (c =? 9).
        -- cbn [put_n obind]. rewrite put_ub by assumption. reflexivity.
        -- cbn [obind]. rewrite put_ub by assumption. reflexivity.
Qed.

Lemma stays_plain text : Forall (fun c => c <> 10) text -> forall x y, 0 <= x < 180 -> 0 <= y < 56 ->
  stays text x y = true.
Proof.
  induction 1 as [|c text Hc _ IH]; intros x y Hx Hy; [reflexivity|]. cbn [stays].
  replace (c =? 10) with false by lia. replace (y <? 56) with true by lia. cbn [andb].
  assert (H : forall n x y, 0 <= x < 180 -> 0 <= y < 56 ->
     0 <= fst (advance_n n x y) < 180 /\ 0 <= snd (advance_n n x y) < 56).
  { clear. induction n as [|n IH]; intros x y Hx Hy; [cbn; lia|]. cbn [advance_n]. unfold advance.
    destruct (Z.leb_spec (56 * 180) (180 * y + x + 1)); apply IH; lia. }
  specialize (H (if c =? 9 then 9%nat else 1%nat) x y Hx Hy).
  destruct (advance_n _ x y) as [x1 y1]. cbn [fst snd] in H. apply IH; lia.
Qed.

Lemma print_inside font fc text s : cursor_ok s -> Forall (fun c => c <> 10) text ->
  exists s', color_print font fc text s = Ok s'.
Proof.
  intros [Hx Hy] Ht. pose proof (print_stays font fc text s Hx ltac:(lia)) as H.
  rewrite stays_plain in H by assumption. exact H.
Qed.

(** Text that fits before the end of the screen. *)
Lemma print_cells font fc text : forall s,
  cursor_ok s -> Forall plain text -> cursor_cell s + Z.of_nat (length text) < 180 * 56 ->
  exists s', color_print font fc text s = Ok s' /\
  cursor_ok s' /\ cursor_cell s' = cursor_cell s + Z.of_nat (length text) /\
  forall X Y, on_screen X Y ->
    pixel s' X Y =
    match text !! Z.to_nat (cell_of X Y - cursor_cell s) with
    | Some c => if (cursor_cell s <=? cell_of X Y) && glyph_dot font c X Y then fc else pixel s X Y
    | None => pixel s X Y
    end.
Proof.
  induction text as [|c text IH]; intros s Hs Ht Hl.
  - exists s. split; [reflexivity|]. split; [exact Hs|]. split; [cbn [length]; lia|]. intros X Y HXY. rewrite lookup_nil. reflexivity.
  - inversion Ht as [|? ? [Hc1 Hc2] Ht2]; subst. cbn [length] in Hl. cbn [color_print]. unfold print1.
    replace (c =? 10) with false by lia. replace (c =? 9) with false by lia. cbn [obind].
    destruct (put_ok font fc c s Hs) as (s1 & E1 & H1 & _ & P). rewrite E1. cbn [obind].
    replace (cursor_cell s + 1 =? 180 * 56) with false in P by lia. destruct P as [P1 P2].
    destruct (IH s1 H1 Ht2) as (s' & E2 & H2 & C2 & P3); [lia|].
    exists s'. split; [exact E2|]. split; [exact H2|]. split; [cbn [length]; lia|].
    intros X Y HXY. rewrite P3, P2 by exact HXY. rewrite P1.
    set (k := cursor_cell s) in *. set (d := cell_of X Y) in *.
    assert (Hd : 0 <= d) by (unfold d, cell_of; destruct HXY; lia). assert (Hk : 0 <= k) by (unfold k, cursor_cell; destruct Hs; lia).
    clearbody d k. destruct (Z.lt_trichotomy d k) as [Hdk|[Hdk|Hdk]].
    + replace (k + 1 <=? d) with false by lia. replace (d =? k) with false by lia. replace (k <=? d) with false by lia.
      cbn [andb]. destruct (text !! _), ((c :: text) !! _); reflexivity.
    + subst d. replace (k + 1 <=? k) with false by lia. rewrite Z.eqb_refl, Z.sub_diag.
      replace (k <=? k) with true by lia. cbn [andb]. cbn [lookup list_lookup Z.to_nat].
      destruct (text !! _); reflexivity.
    + replace (k + 1 <=? d) with true by lia. replace (d =? k) with false by lia. replace (k <=? d) with true by lia.
      cbn [andb]. replace (Z.to_nat (d - k)) with (S (Z.to_nat (d - (k + 1)))) by lia. reflexivity.
Qed.

(** The character in the last cell clears the screen. *)
Lemma print_last font fc c s :
  cursor_ok s -> plain c -> cursor_cell s = 180 * 56 - 1 ->
  exists s', color_print font fc [c] s = Ok s' /\ xpos s' = 0 /\ ypos s' = 0 /\
  forall X Y, on_screen X Y -> pixel s' X Y = BLACK.
Proof.
  intros Hs [Hc1 Hc2] Hk. cbn [color_print]. unfold print1.
  replace (c =? 10) with false by lia. replace (c =? 9) with false by lia. cbn [obind].
  destruct (put_ok font fc c s Hs) as (s1 & E1 & H1 & _ & P). rewrite E1. cbn [obind].
  replace (cursor_cell s + 1 =? 180 * 56) with true in P by lia. destruct P as [P1 P2].
  exists s1. unfold cursor_cell in P1. destruct H1 as [Hx Hy]. split; [reflexivity|]. split; [lia|]. split; [lia|exact P2].
Qed.

Lemma print_newline font fc s :
  color_print font fc [10] s = Ok {| xpos := 0; ypos := ypos s + 1; pix := pix s |}.
Proof. reflexivity. Qed.

Lemma tab_cells font fc s :
  cursor_ok s -> cursor_cell s + 9 < 180 * 56 ->
  exists s', color_print font fc [9] s = Ok s' /\ cursor_cell s' = cursor_cell s + 9.
Proof.
  intros Hs Hk. cbn [color_print print1 Z.eqb Pos.eqb].
  assert (H : forall n s, cursor_ok s -> cursor_cell s + Z.of_nat n < 180 * 56 ->
    exists s', put_n font fc 32 n s = Ok s' /\ cursor_ok s' /\ cursor_cell s' = cursor_cell s + Z.of_nat n).
  { clear. induction n as [|n IH]; intros s Hs Hk.
    - exists s. split; [reflexivity|]. split; [exact Hs|lia].
    - cbn [put_n]. destruct (put_ok font fc 32 s Hs) as (s1 & E1 & H1 & _ & P). rewrite E1. cbn [obind].
      replace (cursor_cell s + 1 =? 180 * 56) with false in P by lia. destruct P as [P1 _].
      destruct (IH s1 H1) as (s' & E2 & H2 & C2); [lia|]. exists s'. split; [exact E2|]. split; [exact H2|lia]. }
  destruct (H 8%nat s Hs) as (s1 & E1 & H1 & C1); [lia|]. rewrite E1. cbn [obind].
  destruct (put_ok font fc 9 s1 H1) as (s2 & E2 & H2 & _ & P). rewrite E2. cbn [obind].
  replace (cursor_cell s1 + 1 =? 180 * 56) with false in P by lia. destruct P as [P1 _].
  exists s2. split; [reflexivity|lia].
Qed.

(** Background: pixels without a dot keep their old colour. *)
Lemma background_kept font fc s c X Y :
  cursor_ok s -> plain c -> cursor_cell s + 1 < 180 * 56 -> on_screen X Y ->
  cell_of X Y = cursor_cell s -> glyph_dot font c X Y = false ->
  exists s', color_print font fc [c] s = Ok s' /\ pixel s' X Y = pixel s X Y.
Proof.
  intros Hs Hc Hk HXY Hcell Hdot.
  destruct (print_cells font fc [c] s Hs ltac:(constructor; [exact Hc|constructor])) as (s' & E & _ & _ & P).
  { cbn [length]. lia. }
  exists s'. split; [exact E|]. rewrite P by exact HXY. rewrite Hcell, Z.sub_diag. change ([c] !! Z.to_nat 0) with (Some c).
  cbv iota. rewrite Hdot, andb_false_r. reflexivity.
Qed.

(** If everything from the cursor on is black, the cells show exactly the glyphs on black. *)
Definition black_ahead (s : vesa) : Prop :=
  forall X Y, on_screen X Y -> cursor_cell s <= cell_of X Y -> pixel s X Y = BLACK.
Lemma print_on_black font fc text s :
  cursor_ok s -> Forall plain text -> cursor_cell s + Z.of_nat (length text) < 180 * 56 -> black_ahead s ->
  exists s', color_print font fc text s = Ok s' /\ black_ahead s' /\
  forall i c X Y, text !! i = Some c -> on_screen X Y -> cell_of X Y = cursor_cell s + Z.of_nat i ->
    pixel s' X Y = if glyph_dot font c X Y then fc else BLACK.
Proof.
  intros Hs Ht Hl Hb. destruct (print_cells font fc text s Hs Ht Hl) as (s' & E & _ & C & P).
  exists s'. split; [exact E|]. split.
  - intros X Y HXY Hc. rewrite P by exact HXY. rewrite lookup_ge_None_2 by lia. apply Hb; [exact HXY|lia].
  - intros i c X Y Hi HXY Hc. rewrite P by exact HXY.
    replace (Z.to_nat (cell_of X Y - cursor_cell s)) with i by lia. rewrite Hi.
    replace (cursor_cell s <=? cell_of X Y) with true by lia. cbn [andb].
    destruct (glyph_dot font c X Y); [reflexivity|]. apply Hb; [exact HXY|lia].
Qed.
