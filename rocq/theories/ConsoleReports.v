(** Proofs about the lines on the screen and the reports made of them. *)
From Coq Require Import ZArith Lia ZifyBool ZifyNat ZifyN String Ascii.
From stdpp Require Import gmap.
From Verif Require Import Base StringModel StringSpec StringProofs PrintfModel PrintfSpec PrintfProofs PrintfLoopProofs VesaModel VesaSpec VesaProofs
  ConsoleModel ConsoleSpec ConsoleProofs ConsolePrintf.
Local Open Scope Z_scope.
Local Open Scope outcome_scope.

(** ** Lines *)
Definition here (k : console) : Z := 180 * cy k + cx k.
Lemma type_line l : Forall plain l -> forall k, 0 <= cx k -> 0 <= cy k < 56 -> cx k + Z.of_nat (length l) < 180 ->
  cx (type_text l k) = cx k + Z.of_nat (length l) /\ cy (type_text l k) = cy k /\ fresh_paper (type_text l k) = fresh_paper k /\
  forall n, drawn (type_text l k) n =
    match (if here k <=? n then l !! Z.to_nat (n - here k) else None) with Some c => c :: drawn k n | None => drawn k n end.
Proof.
  unfold here. induction 1 as [|c l [Hc1 Hc2] _ IH]; intros k Hx Hy Hl.
  - cbn [type_text fold_left length]. split; [lia|]. split; [reflexivity|]. split; [reflexivity|]. intros n. rewrite lookup_nil. destruct (_ <=? _); reflexivity.
  - cbn [type_text fold_left length] in *. change (fold_left _ l ?q) with (type_text l q).
    unfold key. replace (c =? 10) with false by lia. replace (c =? 9) with false by lia.
    assert (E : strike c k = {| cx := cx k + 1; cy := cy k; drawn := fun n => if n =? 180 * cy k + cx k then c :: drawn k n else drawn k n; fresh_paper := fresh_paper k |}).
    { unfold strike. replace (180 * cy k + cx k + 1 =? 56 * 180) with false by lia. f_equal; Z.div_mod_to_equations; lia. }
    rewrite E. edestruct IH as (E1 & E2 & E3 & E4); [| | |].
    4: { split; [etransitivity; [exact E1|]; cbn [cx]; lia|]. split; [exact E2|]. split; [exact E3|]. intros n. rewrite E4. clear E1 E2 E3 E4 IH E. cbn [cx cy drawn].
      destruct (Z.lt_trichotomy n (180 * cy k + cx k)) as [H|[H|H]].
      - replace (180 * cy k + (cx k + 1) <=? n) with false by lia. replace (180 * cy k + cx k <=? n) with false by lia.
        replace (n =? 180 * cy k + cx k) with false by lia. reflexivity.
      - replace (180 * cy k + (cx k + 1) <=? n) with false by lia. replace (180 * cy k + cx k <=? n) with true by lia.
        replace (n =? 180 * cy k + cx k) with true by lia. replace (Z.to_nat (n - (180 * cy k + cx k))) with 0%nat by lia. reflexivity.
      - replace (180 * cy k + (cx k + 1) <=? n) with true by lia. replace (180 * cy k + cx k <=? n) with true by lia.
        replace (n =? 180 * cy k + cx k) with false by lia.
        replace (Z.to_nat (n - (180 * cy k + cx k))) with (S (Z.to_nat (n - (180 * cy k + (cx k + 1))))) by lia. reflexivity. }
    all: cbn [cx cy]; lia.
Qed.
Lemma stays_line l : Forall plain l -> forall x y r, 0 <= x -> 0 <= y < 56 -> x + Z.of_nat (length l) < 180 ->
  stays (l ++ r) x y = stays r (x + Z.of_nat (length l)) y.
Proof.
  induction 1 as [|c l [Hc1 Hc2] _ IH]; intros x y r Hx Hy Hl; [cbn [app length]; f_equal; lia|].
  cbn [app stays length] in *. replace (c =? 10) with false by lia. replace (c =? 9) with false by lia. replace (y <? 56) with true by lia.
  cbn [andb advance_n]. unfold advance. replace (56 * 180 <=? 180 * y + x + 1) with false by lia.
  replace ((180 * y + x + 1) mod 180) with (x + 1) by (Z.div_mod_to_equations; lia).
  replace ((180 * y + x + 1) / 180) with y by (Z.div_mod_to_equations; lia). rewrite IH by lia. f_equal. lia.
Qed.
Lemma stays_lines ls : Forall line_ok ls -> forall y, 0 <= y -> y + Z.of_nat (length ls) <= 56 -> stays (lines_text ls) 0 y = true.
Proof.
  induction 1 as [|l ls [H1 H2] _ IH]; intros y Hy Hl; [reflexivity|]. cbn [length] in Hl.
  unfold lines_text. cbn [map concat]. rewrite <- app_assoc. rewrite stays_line by (try assumption; lia). cbn [app stays]. apply IH; lia.
Qed.
Lemma type_lines ls : Forall line_ok ls -> forall k, cx k = 0 -> 0 <= cy k -> cy k + Z.of_nat (length ls) <= 56 ->
  (forall n, 180 * cy k <= n -> drawn k n = []) ->
  let k' := type_text (lines_text ls) k in
  cx k' = 0 /\ cy k' = cy k + Z.of_nat (length ls) /\ fresh_paper k' = fresh_paper k /\
  forall n, drawn k' n = if 180 * cy k <=? n then page ls (n - 180 * cy k) else drawn k n.
Proof.
  induction 1 as [|l ls [H1 H2] _ IH]; intros k Hx Hy Hl Hd; cbv zeta.
  - cbn [lines_text map concat type_text fold_left length]. split; [exact Hx|]. split; [lia|]. split; [reflexivity|].
    intros n. destruct (Z.leb_spec (180 * cy k) n); [|reflexivity]. unfold page. rewrite lookup_nil. apply Hd. exact H.
  - cbn [length] in Hl. unfold lines_text. cbn [map concat]. rewrite <- app_assoc, type_text_app.
    destruct (type_line l H1 k) as (E1 & E2 & E3 & E4); [lia..|].
    unfold here in E4. rewrite Hx in E1, E4.
    set (k1 := type_text l k) in *. cbn [app type_text fold_left]. change (key 10 k1) with {| cx := 0; cy := cy k1 + 1; drawn := drawn k1; fresh_paper := fresh_paper k1 |}.
    change (fold_left _ (concat _) ?q) with (type_text (lines_text ls) q).
    edestruct (IH {| cx := 0; cy := cy k1 + 1; drawn := drawn k1; fresh_paper := fresh_paper k1 |}) as (F1 & F2 & F3 & F4); cbn [cx cy drawn]; [lia|lia|lia| |].
    { intros n Hn. rewrite E4. rewrite Hd by lia. replace (180 * cy k + 0 <=? n) with true by lia.
      rewrite lookup_ge_None_2; [reflexivity|]. lia. }
    split; [exact F1|]. split; [etransitivity; [exact F2|]; cbn [cy length]; lia|]. split; [etransitivity; [exact F3|]; exact E3|].
    intros n. rewrite F4. cbn [cy drawn]. rewrite E2. clear F1 F2 F3 F4.
    destruct (Z.leb_spec (180 * (cy k + 1)) n) as [G|G].
    + replace (180 * cy k <=? n) with true by lia. unfold page.
      replace (Z.to_nat ((n - 180 * cy k) / 180)) with (S (Z.to_nat ((n - 180 * (cy k + 1)) / 180))) by (Z.div_mod_to_equations; lia).
      replace ((n - 180 * cy k) mod 180) with ((n - 180 * (cy k + 1)) mod 180) by (Z.div_mod_to_equations; lia). reflexivity.
    + rewrite E4. destruct (Z.leb_spec (180 * cy k) n) as [G2|G2].
      * replace (180 * cy k + 0 <=? n) with true by lia. rewrite Hd by lia. unfold page.
        replace (Z.to_nat ((n - 180 * cy k) / 180)) with 0%nat by (Z.div_mod_to_equations; lia). cbn [lookup list_lookup].
        replace ((n - 180 * cy k) mod 180) with (n - (180 * cy k + 0)) by (Z.div_mod_to_equations; lia). reflexivity.
      * replace (180 * cy k + 0 <=? n) with false by lia. reflexivity.
Qed.
(** On the screen. *)
Lemma lines_shown font base ls y s : Forall line_ok ls -> 0 <= y -> y + Z.of_nat (length ls) <= 56 ->
  shows font WHITE base (type_text (lines_text ls) (carriage 0 y)) s -> shows_lines font base y ls s.
Proof.
  intros H Hy Hl (S1 & S2 & S3).
  destruct (type_lines ls H (carriage 0 y)) as (E1 & E2 & E3 & E4); [reflexivity|exact Hy|exact Hl|reflexivity|].
  split; [congruence|]. split; [rewrite S2, E2; reflexivity|]. intros X Y HXY. rewrite S3 by exact HXY. rewrite E3, E4. cbn [carriage fresh_paper drawn cy].
  destruct (180 * y <=? cell_of X Y); reflexivity.
Qed.

(** ** Formats *)
Lemma renders_lits m l args : renders_all m (map Lit l) args l args.
Proof. induction l as [|c l IH]; [constructor|]. cbn [map]. change (c :: l) with ([c] ++ l). econstructor; [constructor|exact IH]. Qed.
Lemma renders_app m d1 : forall a1 o1 a2 d2 o2 a3, renders_all m d1 a1 o1 a2 -> renders_all m d2 a2 o2 a3 -> renders_all m (d1 ++ d2) a1 (o1 ++ o2) a3.
Proof.
  induction d1 as [|d d1 IH]; intros a1 o1 a2 d2 o2 a3 H1 H2; inversion H1; subst; [exact H2|].
  cbn [app]. rewrite <- app_assoc. econstructor; [eassumption|]. eapply IH; eassumption.
Qed.
Lemma renders_one m d a o a' : renders m d a o a' -> renders_all m [d] a o a'.
Proof. intros H. rewrite <- (app_nil_r o). econstructor; [exact H|constructor]. Qed.
Definition ul : directive := Conv [] [117%N] None 108%N.
Definition xl : directive := Conv [] [120%N] None 108%N.
Definition str : directive := Conv [] [] None 115%N.
Lemma value_small n : (n < 2 ^ 64)%N -> int_value 64 false n = Z.of_N n.
Proof. intros H. unfold int_value. cbn [andb]. rewrite N.mod_small by exact H. reflexivity. Qed.
Lemma renders_ul m n r ds : (n < 2 ^ 64)%N -> numeral 10 false n ds -> renders_all m [ul] (A64 n :: r) ds r.
Proof.
  intros Hn Hd. apply renders_one.
  replace ds with ((if (Z.of_N n <? 0)%Z then [45%N] else []) ++ padded (pad_of []) (if (108 =? 105)%N && max_of [117%N] then 20 else width_of [])%N ds).
  - eapply (R_int m [] [117%N] None 108%N (A64 n :: r) None (A64 n :: r) 64 n r); try reflexivity; [symmetry; apply (value_small n Hn)|lia|].
    replace (Z.to_N (Z.abs (Z.of_N n))) with n by lia. exact Hd.
  - replace (Z.of_N n <? 0) with false by lia. unfold padded. cbn. reflexivity.
Qed.
Lemma renders_xl m n r ds : (n < 2 ^ 64)%N -> numeral 16 false n ds -> renders_all m [xl] (A64 n :: r) ds r.
Proof.
  intros Hn Hd. apply renders_one.
  replace ds with ((if (Z.of_N n <? 0)%Z then [45%N] else []) ++ padded (pad_of []) (if (108 =? 105)%N && max_of [120%N] then 20 else width_of [])%N ds).
  - eapply (R_int m [] [120%N] None 108%N (A64 n :: r) None (A64 n :: r) 64 n r); try reflexivity; [symmetry; apply (value_small n Hn)|lia|].
    replace (Z.to_N (Z.abs (Z.of_N n))) with n by lia. exact Hd.
  - replace (Z.of_N n <? 0) with false by lia. unfold padded. cbn. reflexivity.
Qed.
Lemma renders_str m p s r : string_at m p s -> renders_all m [str] (APtr p :: r) s r.
Proof.
  intros [H1 H2]. apply renders_one. eapply (R_str m [] [] None _ None r p s); [reflexivity|left; reflexivity| |].
  - split.
    + apply (H2 (length s)). rewrite lookup_app_r, Nat.sub_diag by lia. reflexivity.
    + intros i Hi. destruct (lookup_lt_is_Some_2 s (N.to_nat i)) as [c Hc]; [lia|]. exists c. split; [|eapply (Forall_lookup_1 _ _ _ _ H1 Hc)].
      replace (p + i)%N with (p + N.of_nat (N.to_nat i))%N by lia. apply H2. apply lookup_app_l_Some, Hc.
  - intros i c Hc. apply H2. apply lookup_app_l_Some, Hc.
Qed.

(** The characters of a numeral. *)
Definition texty (c : N) : Prop := (32 <= c)%N.
Lemma numeral_texty b n ds : numeral b false n ds -> Forall texty ds.
Proof.
  intros [H _]. revert H. generalize 0%N as a. induction ds as [|c ds IH]; intros a H; constructor.
  - cbn [read_number] in H. destruct (digit_value false c) as [v|] eqn:E; [|discriminate]. unfold digit_value in E. unfold texty. repeat case_match; lia || discriminate.
  - cbn [read_number] in H. repeat case_match; try discriminate. eapply IH, H.
Qed.
Lemma number b n : (n < 2 ^ 64)%N -> b = 10%N \/ b = 16%N -> exists ds, numeral b false n ds /\ (length ds <= 20)%nat.
Proof.
  intros Hn [-> | ->].
  - destruct (digits_ok 0 n Hn) as (ds & _ & H1 & H2). exists ds. split; [exact H1|exact H2].
  - destruct (digits_ok 1 n Hn) as (ds & _ & H1 & H2). exists ds. split; [exact H1|exact H2].
Qed.
Lemma texty_plain l : Forall texty l -> Forall plain (map Z.of_N l).
Proof. intros H. apply Forall_map. eapply Forall_impl; [exact H|]. intros c Hc. unfold texty in Hc. unfold plain. cbn. lia. Qed.
Lemma texty_text l : Forall texty l -> as_text (l ++ newline) = map Z.of_N l ++ [10].
Proof.
  intros H. unfold as_text. rewrite upto_nul_none, map_app; [reflexivity|]. apply Forall_app. split; [|repeat constructor; discriminate].
  eapply Forall_impl; [exact H|]. intros c Hc. unfold texty in Hc. lia.
Qed.
Lemma letters_bytes s : letters s = map Z.of_N (bytes s).
Proof. unfold letters, bytes. rewrite map_map. reflexivity. Qed.
(** One call that prints one line. *)
Record line_call := { l_fmt : list directive; l_args : list arg; l_line : list N }.
Definition line_right (m0 : gmap N N) (c : line_call) : Prop :=
  Forall wf_directive (l_fmt c) /\ renders_all m0 (l_fmt c) (l_args c) (l_line c ++ newline) [] /\
  Forall texty (l_line c) /\ (length (l_line c) < 180)%nat.
Lemma lines_printed m0 buf cs k y : Forall (line_right m0) cs -> (0 < buf)%N -> (buf + 1024 < 2 ^ 64)%N -> ready m0 buf (k_mem k) ->
  xpos (k_screen k) = 0 -> ypos (k_screen k) = y -> 0 <= y -> y + Z.of_nat (length cs) <= 56 ->
  exists k', printfs buf (map (fun c => (unparse (l_fmt c), l_args c)) cs) k = Ok k' /\ ready m0 buf (k_mem k') /\
    shows_lines font (k_screen k) y (map (fun c => map Z.of_N (l_line c)) cs) (k_screen k').
Proof.
  intros H Hb Hb2 Hm Hx Hy Hy0 Hl.
  assert (Hr : Forall (right_call m0) (map (fun c => {| c_fmt := l_fmt c; c_args := l_args c; c_out := l_line c ++ newline |}) cs)).
  { apply Forall_map. eapply Forall_impl; [exact H|]. intros c (C1 & C2 & C3 & C4). split; [exact C1|]. split; [eexists; exact C2|].
    cbn. rewrite app_length. cbn. lia. }
  assert (Ht : all_text (map (fun c => {| c_fmt := l_fmt c; c_args := l_args c; c_out := l_line c ++ newline |}) cs) =
               lines_text (map (fun c => map Z.of_N (l_line c)) cs)).
  { unfold all_text, lines_text. f_equal. rewrite !map_map. apply map_ext_in. intros c Hc. cbn [c_out].
    apply texty_text. rewrite Forall_forall in H. apply elem_of_list_In in Hc. apply H in Hc as (_ & _ & C3 & _). exact C3. }
  assert (Ho : Forall line_ok (map (fun c => map Z.of_N (l_line c)) cs)).
  { apply Forall_map. eapply Forall_impl; [exact H|]. intros c (_ & _ & C3 & C4). split; [apply texty_plain, C3|]. rewrite map_length. exact C4. }
  assert (Hn : length (map (fun c => map Z.of_N (l_line c)) cs) = length cs) by apply map_length.
  pose proof (printfs_text m0 buf _ Hr Hb Hb2 k (k_screen k) (carriage (xpos (k_screen k)) (ypos (k_screen k))) Hm (carriage_shows _ _ _)) as P.
  cbv zeta in P. rewrite Ht, map_map, Hx, Hy in P. cbn [c_fmt c_args] in P.
  rewrite (stays_lines _ Ho y Hy0) in P by lia.
  destruct P as (k' & E & R & S). { apply carriage_tidy; lia. }
  exists k'. split; [exact E|]. split; [exact R|]. apply lines_shown; [exact Ho|exact Hy0|lia|exact S].
Qed.

(** ** The reports *)
Definition lit (s : string) : list directive := map Lit (bytes s).
Lemma wf_lit s : forallb (fun c => negb (c =? 0)%N && negb (c =? 37)%N) (bytes s) = true -> Forall wf_directive (lit s).
Proof.
  intros H. unfold lit. apply Forall_map. rewrite forallb_forall in H. apply Forall_forall. intros c Hc. apply elem_of_list_In in Hc.
  apply H in Hc. cbn. lia.
Qed.
Lemma wf_ul : wf_directive ul.
Proof. repeat split; try (constructor; fail); try lia. { constructor; [left; reflexivity|constructor]. } { unfold is_flag. lia. } { discriminate. } Qed.
Lemma wf_xl : wf_directive xl.
Proof. repeat split; try (constructor; fail); try lia. { constructor; [right; right; right; left; reflexivity|constructor]. } { unfold is_flag. lia. } { discriminate. } Qed.
Lemma wf_str : wf_directive str.
Proof. repeat split; try (constructor; fail); try lia. { unfold is_flag. lia. } { unfold is_digit. lia. } Qed.
Lemma texty_bytes s : forallb (fun c => 32 <=? c)%N (bytes s) = true -> Forall texty (bytes s).
Proof. intros H. rewrite forallb_forall in H. apply Forall_forall. intros c Hc. apply elem_of_list_In in Hc. apply H in Hc. unfold texty. lia. Qed.
