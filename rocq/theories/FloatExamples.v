(** Concrete doubles used as witnesses beside the theorems about %f (C81). *)
From stdpp Require Import gmap.
From Coq Require Import ZArith QArith Qabs Lia ZifyBool ZifyNat ZifyN SpecFloat.
From Verif Require Import Base StringModel StringSpec PrintfModel PrintfSpec PrintfProofs PrintfLoopProofs FloatSpec.
Local Open Scope N_scope.

(** sixteen bytes at 1000 *)
Definition paper : gmap N N := list_to_map (map (fun i => (1000 + N.of_nat i, 7)) (seq 0 16)).
(** -2.71875 *)
Definition demo_double : spec_float := S754_finite true 6122080743456768 (-51).
(** "v=%5.3f%c" *)
Definition float_format : list directive := [Lit 118; Lit 61; Conv [53] [] (Some [51]) 102; Conv [] [] None 99].

Lemma num1 c : 48 <= c -> c <= 57 -> numeral 10 false (c - 48) [c].
Proof.
  intros A B. unfold numeral. cbn [read_number digit_value]. unfold digit_value.
  replace ((48 <=? c) && (c <=? 57)) with true by lia. replace (c - 48 <? 10) with true by lia.
  split; [f_equal; lia|]. split; [discriminate|]. intros cs' [= _ <-]. reflexivity.
Qed.

Lemma c81_demo :
  Forall wf_directive float_format /\ is_double demo_double /\
  renders_all_f 0 ∅ float_format [ADbl demo_double; A32 33] [118; 61; 45; 32; 32; 32; 32; 50; 46; 55; 49; 57; 33] [] /\
  mapped paper 1000 16.
Proof.
  assert (Hd : is_double demo_double) by (split; [reflexivity|exact I]).
  split; [|split; [exact Hd|split]].
  - repeat constructor; cbn; unfold is_digit, is_flag; try lia; try discriminate.
  - apply (RFA_cons 0 ∅ (Lit 118) _ _ [118] [ADbl demo_double; A32 33] [61; 45; 32; 32; 32; 32; 50; 46; 55; 49; 57; 33]).
    { apply RF_other. constructor. }
    apply (RFA_cons 0 ∅ (Lit 61) _ _ [61] [ADbl demo_double; A32 33] [45; 32; 32; 32; 32; 50; 46; 55; 49; 57; 33]).
    { apply RF_other. constructor. }
    apply (RFA_cons 0 ∅ (Conv [53] [] (Some [51]) 102) _ _ [45; 32; 32; 32; 32; 50; 46; 55; 49; 57] [A32 33] [33]).
    { eapply RF_float; [reflexivity|exact Hd|reflexivity|vm_compute; discriminate|].
      unfold float_text. change (width_of [51] =? 0) with false. cbv iota.
      exists 2, 719, [50], [55; 49; 57]. split; [split; [reflexivity|vm_compute; discriminate]|].
      split; [apply (num1 50); lia|]. split; [|vm_compute; reflexivity].
      split; [reflexivity|]. split; [discriminate|]. intros cs' H. discriminate. }
    apply (RFA_cons 0 ∅ (Conv [] [] None 99) _ _ [33] [] []).
    { apply RF_other. apply (R_chr ∅ [] [] None [A32 33] None 33 []). reflexivity. }
    constructor.
  - intros i Hi.
    assert (i = 0 \/ i = 1 \/ i = 2 \/ i = 3 \/ i = 4 \/ i = 5 \/ i = 6 \/ i = 7 \/ i = 8 \/ i = 9 \/
            i = 10 \/ i = 11 \/ i = 12 \/ i = 13 \/ i = 14 \/ i = 15) as D by lia.
    repeat destruct D as [->|D]; [..|subst i]; vm_compute; eauto.
Qed.

(** the double just below 0.05 *)
Definition below_twentieth : spec_float := S754_finite false 7205759403792793 (-57).

Ltac read_off := let i := fresh "i" in let c := fresh "c" in let H := fresh "H" in
  intros i c H; repeat (destruct i as [|i]; [injection H as <-; vm_compute; reflexivity|]); discriminate.

(** "%.1f" of it: 0.1, although 0.0 is the nearest *)
Lemma not_nearest :
  exists (x : spec_float) (m' : gmap N N) (e : N), is_double x /\ decimal_of (magnitude x) 1 0 0 0 /\ ~ decimal_of (magnitude x) 1 0 0 1 /\
    snprintf paper 1000 16 [37; 46; 49; 102] [ADbl x] = FOk (m', e) /\
    (forall i c, [48; 46; 49; 0] !! i = Some c -> m' !! (1000 + N.of_nat i) = Some c).
Proof.
  exists below_twentieth. do 2 eexists. split; [split; [reflexivity|exact I]|].
  split; [split; [reflexivity|vm_compute; discriminate]|].
  split. { intros [_ H]. vm_compute in H. apply H. reflexivity. }
  split; [vm_compute; reflexivity|]. read_off.
Qed.

(** "%.10f" of one half: 0.0705032704 *)
Lemma ten_digits :
  exists (x : spec_float) (m' : gmap N N) (e : N), is_double x /\ decimal_of (magnitude x) 10 0 0 5000000000 /\
    ~ decimal_of (magnitude x) 10 (10 ^ 9) 0 705032704 /\
    snprintf paper 1000 16 [37; 46; 49; 48; 102] [ADbl x] = FOk (m', e) /\
    (forall i c, [48; 46; 48; 55; 48; 53; 48; 51; 50; 55; 48; 52; 0] !! i = Some c -> m' !! (1000 + N.of_nat i) = Some c).
Proof.
  exists (S754_finite false 4503599627370496 (-53)). do 2 eexists. split; [split; [reflexivity|exact I]|].
  split; [split; [reflexivity|vm_compute; discriminate]|].
  split. { intros [_ H]. vm_compute in H. apply H. reflexivity. }
  split; [vm_compute; reflexivity|]. read_off.
Qed.

(** "%f" of 0.9: 0, where C prints 0.900000 *)
Lemma no_precision :
  exists (x : spec_float) (m' : gmap N N) (e : N), is_double x /\ ((9 # 10) - (1 # 10 ^ 15) < magnitude x)%Q /\
    snprintf paper 1000 16 [37; 102] [ADbl x] = FOk (m', e) /\
    (forall i c, [48; 0] !! i = Some c -> m' !! (1000 + N.of_nat i) = Some c).
Proof.
  exists (S754_finite false 8106479329266893 (-53)). do 2 eexists. split; [split; [reflexivity|exact I]|].
  split; [reflexivity|]. split; [vm_compute; reflexivity|]. read_off.
Qed.

(** a double of 2^63 or more, an infinity or a NaN is undefined behaviour whatever the format around it *)
Lemma too_large bd m b w fw x : base bd <= b -> b < last bd ->
  (is_double x /\ (inject_Z (2 ^ 63) <= magnitude x)%Q) \/ match x with S754_infinity _ | S754_nan => True | _ => False end ->
  conv_float bd m b (pad_of w) (width_of w) fw x = FErr BadArg.
Proof.
  intros B1 B2 [[[V F] G]|F].
  - destruct x as [s|s| |s p e]; try contradiction; try (exfalso; apply G; reflexivity).
    assert (H : (2 ^ 63 <= match e with Z0 => Zpos p | Zpos k => (Zpos p * 2 ^ Zpos k) | Zneg k => Zpos p / 2 ^ Zpos k end)%Z).
    { destruct e as [|k|k]; cbn [magnitude] in G; unfold Qle in G; cbn [Qnum Qden inject_Z] in G.
      - lia.
      - lia.
      - apply Z.div_le_lower_bound; [apply Z.pow_pos_nonneg; lia|]. rewrite Pos2Z.inj_pow in G. lia. }
    assert (E : dbl_to_i64 (S754_finite false p e) = FErr BadArg).
    { unfold dbl_to_i64. cbn [dbl_trunc]. destruct (Z.ltb_spec (match e with Z0 => Zpos p | Zpos k => (Zpos p * 2 ^ Zpos k) | Zneg k => Zpos p / 2 ^ Zpos k end)%Z (2 ^ 63)%Z); [lia|].
      rewrite andb_false_r. reflexivity. }
    unfold conv_float. destruct s; cbn [dbl_lt0 SFltb SFcompare].
    + rewrite put_ok by assumption. cbn [fbind SFopp negb]. rewrite E. reflexivity.
    + cbn [fbind]. rewrite E. reflexivity.
  - destruct x as [s|s| |s p e]; try contradiction; [destruct s|]; try reflexivity.
    unfold conv_float. cbn [dbl_lt0 SFltb SFcompare]. rewrite put_ok by assumption. reflexivity.
Qed.
