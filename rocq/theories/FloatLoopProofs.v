(** Proofs for %f (C81): the digits of the model are those of FloatSpec, and the text is emitted. *)
From stdpp Require Import gmap.
From Coq Require Import ZArith Reals Lra Lia ZifyBool ZifyNat ZifyN QArith Qabs Qround Qreals SpecFloat.
From Flocq Require Import Core BinarySingleNaN.
From Verif Require Import Base StringModel StringSpec PrintfModel PrintfSpec PrintfProofs PrintfLoopProofs FloatProofs FloatSpec.
Local Open Scope N_scope.

Local Notation bin := (binary_float 53 1024).

Lemma Q2R_inject z : Q2R (inject_Z z) = IZR z.
Proof. unfold Q2R, inject_Z. cbn. lra. Qed.

Lemma magnitude_value s m e : Q2R (magnitude (S754_finite s m e)) = F2R (Float radix2 (Zpos m) e).
Proof.
  rewrite pos_val. destruct e as [|p|p]; cbn [magnitude].
  - rewrite Q2R_inject. f_equal. lia.
  - apply Q2R_inject.
  - unfold Q2R. cbn [Qnum Qden]. rewrite Pos2Z.inj_pow. reflexivity.
Qed.

Lemma float_value x : is_double x ->
  exists b : bin, (if below_zero x then SFopp x else x) = B2SF b /\ nonneg b /\ B2R b = Q2R (magnitude x) /\
    dbl_lt0 x = below_zero x.
Proof.
  intros [V F]. destruct x as [s|s| |s m e]; try contradiction.
  - exists (B754_zero s). split; [reflexivity|]. split; [split; [reflexivity|cbn; lra]|].
    split; [|reflexivity]. cbn. unfold Q2R. cbn. lra.
  - exists (B754_finite false m e V). split; [destruct s; reflexivity|].
    assert (E : B2R (B754_finite false m e V) = Q2R (magnitude (S754_finite s m e))) by (rewrite magnitude_value; reflexivity).
    split; [|split; [exact E|destruct s; reflexivity]].
    split; [reflexivity|]. cbn [B2R cond_Zopp]. apply F2R_ge_0. cbn. lia.
Qed.

Lemma floor_value q : Zfloor (Q2R q) = Qfloor q.
Proof.
  apply Zfloor_imp. split.
  - rewrite <- Q2R_inject. apply Qle_Rle, Qfloor_le.
  - rewrite <- Q2R_inject. apply Qlt_Rlt, Qlt_floor.
Qed.

Lemma magnitude_nonneg x : (0 <= magnitude x)%Q.
Proof.
  destruct x as [s|s| |s m e]; try apply Qle_refl. destruct e as [|p|p]; cbn [magnitude]; unfold Qle; cbn [Qnum Qden inject_Z]; try lia.
Qed.

Lemma frac_scale_pow fw : fw <= 9 -> frac_scale fw = 10 ^ fw.
Proof.
  intros H. assert (fw = 0 \/ fw = 1 \/ fw = 2 \/ fw = 3 \/ fw = 4 \/ fw = 5 \/ fw = 6 \/ fw = 7 \/ fw = 8 \/ fw = 9) as D by lia.
  repeat destruct D as [->|D]; [..|subst fw]; vm_compute; reflexivity.
Qed.

Lemma pow10_range fw : fw <= 9 -> (1 <= Z.of_N (10 ^ fw) <= 10 ^ 9)%Z.
Proof.
  intros H. pose proof (N.pow_le_mono_r 10 fw 9). assert (10 ^ fw <> 0) by (apply N.pow_nonzero; lia).
  change (10 ^ 9)%Z with (Z.of_N (10 ^ 9)). lia.
Qed.

Definition slack : Q := 1 # (2 ^ 22).
Lemma slack_value : Q2R slack = (/ IZR (2 ^ 22))%R.
Proof. unfold slack, Q2R. cbn [Qnum Qden]. rewrite Pos2Z.inj_pow. lra. Qed.

(** the digits computed by the model *)
Lemma digits_ok x fw : is_double x -> (magnitude x < inject_Z (2 ^ 63))%Q -> fw <= 9 ->
  let f := if below_zero x then SFopp x else x in
  dbl_to_i64 f = FOk (Qfloor (magnitude x)) /\ (0 <= Qfloor (magnitude x) < 2 ^ 63)%Z /\
  exists fr, dbl_to_u64 (SFadd 53 1024
     (SFmul 53 1024 (SFsub 53 1024 f (dbl_of_Z (Qfloor (magnitude x)))) (dbl_of_Z (Z.of_N (10 ^ fw)))) dbl_half) = FOk fr /\
   fr <= 10 ^ fw /\
   (Qabs (inject_Z (Qfloor (magnitude x) * Z.of_N (10 ^ fw) + Z.of_N fr) - magnitude x * inject_Z (Z.of_N (10 ^ fw))) <= (1 # 2) + slack)%Q.
Proof.
  intros D B Hf f. destruct (float_value x D) as (b & Eb & Nb & Vb & _). fold f in Eb. rewrite Eb.
  pose proof (trunc_floor b Nb) as T.
  assert (Rb : (B2R b < IZR (2 ^ 63))%R) by (rewrite Vb, <- Q2R_inject; apply Qlt_Rlt; exact B).
  pose proof (pow10_range fw Hf) as Hs.
  destruct (fraction b (Z.of_N (10 ^ fw)) Nb Rb Hs) as (fr & Tf & Rf & Ef).
  rewrite Vb, floor_value in *.
  assert (R0 : (0 <= Qfloor (magnitude x) < 2 ^ 63)%Z).
  { split.
    - pose proof (Qfloor_resp_le 0 (magnitude x) (magnitude_nonneg x)) as H. exact H.
    - rewrite Zlt_Qlt. eapply Qle_lt_trans; [apply Qfloor_le|exact B]. }
  split; [|split; [exact R0|]].
  { unfold dbl_to_i64. change dbl_trunc with trunc. rewrite T.
    set (z := Qfloor (magnitude x)) in *. clearbody z.
    replace ((- 2 ^ 63 <=? z)%Z && (z <? 2 ^ 63)%Z) with true; [reflexivity|].
    symmetry. apply andb_true_intro. split; [apply Z.leb_le|apply Z.ltb_lt]; [|apply R0].
    transitivity 0%Z; [discriminate|apply R0]. }
  exists (Z.to_N fr). split; [|split].
  - unfold dbl_to_u64, dbl_of_Z, dbl_half. change dbl_trunc with trunc. rewrite Tf.
    replace ((0 <=? fr)%Z && (fr <? 2 ^ 64)%Z) with true; [reflexivity|].
    symmetry. apply andb_true_intro. split; [apply Z.leb_le; lia|apply Z.ltb_lt].
    apply Z.le_lt_trans with (10 ^ 9)%Z; [lia|reflexivity].
  - lia.
  - rewrite Z2N.id by lia. apply Qabs_Qle_condition.
    apply Rabs_le_inv in Ef.
    split; apply Rle_Qle; rewrite ?Q2R_opp, ?Q2R_minus, ?Q2R_plus, ?Q2R_mult, ?Q2R_inject, ?slack_value, ?plus_IZR, ?mult_IZR;
      replace (Q2R (1 # 2)) with (1/2)%R by (unfold Q2R; cbn; lra); lra.
Qed.

(** ** Emission *)

Lemma number_emits bd m b n zero width : wfb bd -> base bd <= b -> b <= last bd -> n < 2 ^ 64 ->
  exists ds, numeral 10 false n ds /\ emits bd m b (padded zero width ds) (sprintf_num bd m b n zero 0 width).
Proof.
  intros Hw H1 H2 Hn. destruct (sprintf_num_emits bd m b n zero 0 width Hw H1 H2 Hn) as (ds & A & _ & B).
  exists ds. split; [exact A|exact B].
Qed.
(** the numeral does not depend on where it is written *)
Lemma numeral_exists n : n < 2 ^ 64 -> exists ds, numeral 10 false n ds /\
  forall bd m b zero width, wfb bd -> base bd <= b -> b <= last bd ->
    emits bd m b (padded zero width ds) (sprintf_num bd m b n zero 0 width).
Proof.
  intros Hn.
  destruct (number_emits {| base := 1; last := 1 |} ∅ 1 n 32 0) as (ds & A & _); [unfold wfb; cbn; lia|cbn; lia|cbn; lia|exact Hn|].
  exists ds. split; [exact A|]. intros bd m b zero width Hw H1 H2.
  destruct (number_emits bd m b n zero width Hw H1 H2 Hn) as (ds' & A' & B').
  rewrite (numeral_unique 10 false) with (ds1 := ds) (ds2 := ds') (n := n); [exact B'|lia|exact A|exact A'].
Qed.

Lemma conv_float_emits bd m b w fw x : wfb bd -> base bd <= b -> b < last bd ->
  is_double x -> (magnitude x < inject_Z (2 ^ 63))%Q -> fw <= 9 ->
  exists out, float_text w fw slack x out /\ emits bd m b out (conv_float bd m b (pad_of w) (width_of w) fw x).
Proof.
  intros Hw H1 H2 D B Hf.
  destruct (float_value x D) as (_ & _ & _ & _ & Lt).
  destruct (digits_ok x fw D B Hf) as (Ei & Ri & fr & Ef & Rf & Cf). cbv zeta in Ei, Ef.
  set (z := Qfloor (magnitude x)) in *.
  assert (Hsign : forall out k, (forall m1 b1, b <= b1 -> b1 <= last bd ->
       emits bd m1 b1 out (k (m1, b1, if below_zero x then SFopp x else x))) ->
     emits bd m b ((if below_zero x then [45] else []) ++ out)
       (fbind (if below_zero x then fbind (put bd m b 45) (fun '(m1, b1) => FOk (m1, b1, SFopp x)) else FOk (m, b, x)) k)).
  { intros out k Hk. destruct (below_zero x).
    - pose proof (put_emits bd m b 45 H1 H2) as P. rewrite put_ok in P |- * by assumption. cbn [fbind].
      change (k (<[b:=45]> m, b + 1, SFopp x)) with (fbind (FOk (<[b:=45]> m, b + 1)) (fun r => k (r.1, r.2, SFopp x))).
      apply emits_app; [lia|exact P|]. intros m1 b1 _ Ha Hb. apply Hk; assumption.
    - cbn [fbind app]. apply Hk; lia. }
  assert (U : u64z z = Z.to_N z).
  { apply u64z_small. split; [apply Ri|]. eapply Z.lt_trans; [apply Ri|reflexivity]. }
  assert (Hz : Z.to_N z < 2 ^ 63).
  { change (2 ^ 63) with (Z.to_N (2 ^ 63)). apply Z2N.inj_lt; [lia|lia|apply Ri]. }
  assert (H6364 : 2 ^ 63 + 2 ^ 63 = 2 ^ 64) by reflexivity.
  assert (H630 : 10 ^ 9 < 2 ^ 63) by reflexivity.
  unfold float_text. destruct (N.eqb_spec fw 0) as [->|Hne].
  - destruct (numeral_exists (Z.to_N z)) as (di & Ni & Em); [lia|].
    exists ((if below_zero x then [45] else []) ++ padded (pad_of w) (width_of w) di). split.
    { exists di. split; [exact Ni|reflexivity]. }
    unfold conv_float. rewrite Lt. apply Hsign. intros m1 b1 Ha Hb.
    rewrite Ei. cbn [fbind N.eqb]. rewrite U.
    destruct (Em bd m1 b1 (pad_of w) (width_of w) Hw) as (m' & E & T); [lia|lia|]. exists m'. rewrite E. split; [reflexivity|exact T].
  - set (s := 10 ^ fw) in *.
    assert (Hs : 1 <= s <= 10 ^ 9).
    { pose proof (pow10_range fw Hf) as P. fold s in P. change (10 ^ 9)%Z with (Z.of_N (10 ^ 9)) in P. lia. }
    assert (exists i q, (if fr =? s then FOk (u64 (Z.to_N z + 1), 0) else FOk (Z.to_N z, fr)) = FOk (i, q) /\
       i < 2 ^ 64 /\ q < s /\ i * s + q = Z.to_N z * s + fr) as (i & q & Eq & Hi & Hq & Esum).
    { destruct (N.eqb_spec fr s) as [->|].
      - exists (Z.to_N z + 1), 0. unfold u64. rewrite N.mod_small by lia. split; [reflexivity|]. lia.
      - exists (Z.to_N z), fr. split; [reflexivity|]. lia. }
    destruct (numeral_exists i Hi) as (di & Ni & Emi). destruct (numeral_exists q) as (dq & Nq & Emq); [lia|].
    exists ((if below_zero x then [45] else []) ++ padded (pad_of w) (width_of w) di ++ [46] ++ padded 48 fw dq). split.
    { exists i, q, di, dq. split; [|split; [exact Ni|split; [exact Nq|reflexivity]]].
      split; [exact Hq|]. fold s. rewrite Esum.
      replace (Z.of_N (Z.to_N z * s + fr)) with (z * Z.of_N s + Z.of_N fr)%Z by lia.
      replace (10 ^ Z.of_N fw)%Z with (Z.of_N s) by (unfold s; rewrite N2Z.inj_pow; reflexivity). exact Cf. }
    unfold conv_float. rewrite Lt. apply Hsign. intros m1 b1 Ha Hb.
    rewrite Ei. cbn [fbind]. rewrite U, frac_scale_pow by exact Hf. fold s.
    rewrite Z2N.id by apply Ri. replace (fw =? 0) with false by lia. rewrite Ef. cbn [fbind].
    rewrite Eq. cbn [fbind].
    apply (emits_app bd m1 b1 _ _ _ (fun r => let '(m2, buf2) := r in
       fbind (if buf2 <? last bd then put bd m2 buf2 46 else FOk (m2, buf2)) (fun '(m3, buf3) => sprintf_num bd m3 buf3 q 48 0 fw))).
    + exact Hb.
    + apply Emi; [exact Hw|lia|exact Hb].
    + intros m2 b2 _ Hb2 Hb2'.
      apply (emits_app bd m2 b2 _ _ _ (fun r => let '(m3, buf3) := r in sprintf_num bd m3 buf3 q 48 0 fw)).
      * exact Hb2'.
      * destruct (b2 <? last bd) eqn:E; [apply put_emits; lia|apply emits_full; lia].
      * intros m3 b3 _ Hb3 Hb3'. apply Emq; [exact Hw|lia|exact Hb3'].
Qed.

Lemma step_float bd m0 pre d rest s c0 s0 o args' :
  wfb bd -> wf_directive d -> held m0 (pm s) bd ->
  mapped (pm s) (base bd) (last bd - base bd) ->
  base bd <= pbuf s -> pbuf s < last bd ->
  pfmt s = length pre ->
  fmt_at (pre ++ unparse1 d ++ rest) (length pre) = FOk c0 ->
  renders_f s0 m0 d (pargs s) o args' ->
  exists o', renders_f slack m0 d (pargs s) o' args' /\
    pemits bd s o' (length pre + length (unparse1 d)) args' (step bd (pre ++ unparse1 d ++ rest) s c0).
Proof.
  intros Hw Hd Hh Hm H1 H2 Hp Hc0 Hr. inversion Hr as [? ? ? ? Hr1|w f fr ? cnt x args1 out St Dx Bx Wx _]; subst.
  - exists o. split; [constructor; exact Hr1|]. eapply step_renders; eassumption.
  - assert (c0 = 37) as ->. { cbn [unparse1 app] in Hc0. rewrite fmt_at_here in Hc0. congruence. }
    destruct (step_conv_frac bd pre w f fr 102 rest s cnt (ADbl x :: args') Hd Hp St) as (j & -> & Hat & Hj).
    destruct (conv_float_emits bd (pm s) (pbuf s) w _ x Hw H1 H2 Dx Bx Wx) as (o' & T & E).
    exists o'. split; [eapply RF_float; eassumption|].
    rewrite <- Hj. unfold convert. rewrite Hat. cbn [fbind N.eqb Pos.eqb vadbl frac_width].
    apply pemits_done. exact E.
Qed.

(** an exact text is also one within the slack *)
Lemma renders_weaken m d args o args' : renders_f 0 m d args o args' -> renders_f slack m d args o args'.
Proof.
  intros [d' a o' a' R|w f fr a cnt x a1 o' St Dx Bx Wx T]; [constructor; exact R|].
  eapply RF_float; [eassumption..|]. unfold float_text in *. destruct (_ =? 0); [exact T|].
  destruct T as (i & q & di & dq & (Q1 & Q2) & T). exists i, q, di, dq. split; [|exact T]. split; [exact Q1|].
  eapply Qle_trans; [exact Q2|]. apply Qplus_le_compat; [apply Qle_refl|]. discriminate.
Qed.
Lemma renders_all_weaken m ds args o args' : renders_all_f 0 m ds args o args' -> renders_all_f slack m ds args o args'.
Proof. induction 1; econstructor; [apply renders_weaken|]; eassumption. Qed.

Lemma vloop_float bd m0 ds : forall pre fuel s out0 args',
  wfb bd -> Forall wf_directive ds -> held m0 (pm s) bd ->
  mapped (pm s) (base bd) (last bd - base bd) ->
  base bd <= pbuf s -> pbuf s <= last bd -> (length ds <= fuel)%nat ->
  pfmt s = length pre ->
  renders_all_f 0 m0 ds (pargs s) out0 args' ->
  exists m' i' a' out, renders_all_f slack m0 ds (pargs s) out args' /\ vloop fuel bd (pre ++ unparse ds) s =
     FOk {| pm := m'; pbuf := pbuf s + N.of_nat (length (take (room bd (pbuf s)) out)); pfmt := i'; pargs := a' |} /\
     text_written (pm s) (pbuf s) (take (room bd (pbuf s)) out) m'.
Proof.
  induction ds as [|d ds IH]; intros pre fuel s out0 args' Hw Hds Hh Hm H1 H2 Hfu Hp Hr.
  - inversion Hr; subst. exists (pm s), (pfmt s), (pargs s), []. split; [constructor|].
    rewrite take_nil. cbn [length N.of_nat]. split; [|apply text_written_nil].
    rewrite N.add_0_r. cbn [unparse map concat].
    destruct s as [m b i a]. cbn in *. subst i.
    destruct fuel; cbn [vloop pfmt]; rewrite fmt_at_head; cbn; reflexivity.
  - destruct (decide (pbuf s < last bd)) as [Hlt|Hge].
    + inversion Hr as [|? ? ? o0 ? os0 ? Hr1 Hr2]; subst. inversion Hds as [|? ? Hd Hds']; subst.
      change (unparse (d :: ds)) with (unparse1 d ++ unparse ds).
      assert (Hat : fmt_at (pre ++ unparse1 d ++ unparse ds) (length pre) = FOk (head0 (unparse1 d ++ unparse ds)))
        by apply fmt_at_head.
      destruct fuel as [|fuel]; [simpl in Hfu; lia|].
      cbn [vloop]. rewrite Hp, Hat. cbn [fbind].
      pose proof (head_directive d (unparse ds) Hd) as Hne.
      replace (negb _ && _) with true by lia.
      destruct (step_float bd m0 pre d (unparse ds) s _ _ _ _ Hw Hd Hh Hm H1 Hlt Hp Hat Hr1) as (o & Ho & m1 & -> & Ht1).
      cbn [fbind].
      set (b1 := pbuf s + N.of_nat (length (take (room bd (pbuf s)) o))) in *.
      assert (Hb1 : pbuf s <= b1 <= last bd) by (unfold b1; rewrite take_length; unfold room; lia).
      assert (E : pre ++ unparse1 d ++ unparse ds = (pre ++ unparse1 d) ++ unparse ds) by apply app_assoc.
      rewrite E.
      destruct (IH (pre ++ unparse1 d) fuel
                  {| pm := m1; pbuf := b1; pfmt := (length pre + length (unparse1 d))%nat; pargs := args1 |}
                  os0 args') as (m2 & i2 & a2 & os & Hos & Hv & Ht2); cbn [pm pbuf pfmt pargs] in *.
      * exact Hw.
      * exact Hds'.
      * apply (held_written m0 (pm s) bd (pbuf s) (take (room bd (pbuf s)) o) m1); try assumption.
        fold b1. lia.
      * eapply mapped_written; eassumption.
      * lia.
      * lia.
      * simpl in Hfu. lia.
      * rewrite app_length. reflexivity.
      * exact Hr2.
      * rewrite Hv. exists m2, i2, a2, (o ++ os). split; [econstructor; eassumption|].
        destruct (emits_app bd (pm s) (pbuf s) o os (FOk (m1, b1))
                    (fun _ => FOk (m2, b1 + N.of_nat (length (take (room bd b1) os)))) H2)
          as (m3 & Hm3 & Ht3).
        -- exists m1. split; [reflexivity|exact Ht1].
        -- intros m1' b1' [= <- <-] _ _. exists m2. split; [reflexivity|exact Ht2].
        -- cbn [fbind] in Hm3. injection Hm3 as <- Hlen. split; [|exact Ht3].
           do 2 f_equal. exact Hlen.
    + exists (pm s), (pfmt s), (pargs s), out0. split; [apply renders_all_weaken; exact Hr|].
      change (unparse (d :: ds)) with (unparse1 d ++ unparse ds).
      erewrite vloop_full; [|rewrite Hp; apply fmt_at_head|lia].
      replace (room bd (pbuf s)) with 0%nat by (unfold room; lia). cbn [take length N.of_nat].
      rewrite N.add_0_r. split; [destruct s; reflexivity|apply text_written_nil].
Qed.

Lemma snprintf_float m buf max ds args out0 args' :
  forall m0, Forall wf_directive ds -> renders_all_f 0 m0 ds args out0 args' ->
  0 < buf -> buf + max < 2 ^ 64 -> mapped m buf max ->
  (forall x v, m0 !! x = Some v -> m !! x = Some v /\ (x < buf \/ buf + max <= x)) ->
  exists m' out, renders_all_f (1 # 2 ^ 22) m0 ds args out args' /\
             snprintf m buf max (unparse ds) args =
               FOk (m', buf + N.of_nat (length (take (N.to_nat max) (out ++ [0])))) /\
             text_written m buf (take (N.to_nat max) (out ++ [0])) m'.
Proof.
  intros m0 Hds Hr H0 H64 Hm Hh. unfold snprintf, vslprintf.
  set (bd := {| base := buf; last := buf + max |}).
  assert (Hw : wfb bd) by (unfold wfb, bd; cbn [base last]; lia).
  destruct (vloop_float bd m0 ds [] (S (length (unparse ds)))
              {| pm := m; pbuf := buf; pfmt := 0; pargs := args |} out0 args') as (m1 & i1 & a1 & out & Ho & Hv & Ht1);
    try assumption; try reflexivity; cbn [pm pbuf pfmt pargs bd base last length] in *.
  - replace (buf + max - buf) with max by lia. exact Hm.
  - lia.
  - pose proof (length_unparse ds). lia.
  - cbn [app] in Hv. rewrite Hv. cbn [fbind pm pbuf].
    assert (Er : room bd buf = N.to_nat max) by (unfold room, bd; cbn [last]; lia).
    fold bd in Ht1 |- *.
    set (b1 := buf + N.of_nat (length (take (room bd buf) out))) in *.
    destruct (emits_app bd m buf out [0] (FOk (m1, b1))
                (fun r => if r.2 <? buf + max then put bd r.1 r.2 0 else FOk r)) as (m2 & Hm2 & Ht2).
    + unfold bd; cbn [last]; lia.
    + exists m1. split; [reflexivity|exact Ht1].
    + intros m1' b1' [= <- <-] Hb1 Hb2. cbn [fst snd].
      destruct (b1 <? buf + max) eqn:E.
      * apply put_emits; unfold bd; cbn [base last]; lia.
      * apply emits_full. unfold bd; cbn [last]; lia.
    + cbn [fbind fst snd] in Hm2. exists m2, out. rewrite <- Er. split; [exact Ho|split; [exact Hm2|exact Ht2]].
Qed.

(** ** How far two admissible decimals are apart *)
Lemma decimals_close v k i q i' q' :
  decimal_of v k (1 # 2 ^ 22) i q -> decimal_of v k 0 i' q' ->
  (Z.abs (Z.of_N (i * 10 ^ k + q) - Z.of_N (i' * 10 ^ k + q')) <= 1)%Z.
Proof.
  intros [_ A] [_ B]. apply Qabs_Qle_condition in A, B.
  set (a := Z.of_N (i * 10 ^ k + q)) in *. set (b := Z.of_N (i' * 10 ^ k + q')) in *.
  set (t := (v * inject_Z (10 ^ Z.of_N k))%Q) in *.
  assert (inject_Z (a - b) < inject_Z 2)%Q as P.
  { unfold Zminus. rewrite inject_Z_plus, inject_Z_opp. destruct A as [_ A], B as [B _].
    apply Qle_lt_trans with ((1 # 2) + (1 # 2 ^ 22) + ((1 # 2) + 0))%Q; [|reflexivity].
    replace (inject_Z a + - inject_Z b)%Q with (inject_Z a + - inject_Z b)%Q by reflexivity.
    setoid_replace (inject_Z a + - inject_Z b)%Q with ((inject_Z a - t) + - (inject_Z b - t))%Q by ring.
    apply Qplus_le_compat; [exact A|]. rewrite <- (Qopp_involutive ((1 # 2) + 0)). apply Qopp_le_compat, B. }
  assert (inject_Z (b - a) < inject_Z 2)%Q as P'.
  { unfold Zminus. rewrite inject_Z_plus, inject_Z_opp. destruct A as [A _], B as [_ B].
    apply Qle_lt_trans with (((1 # 2) + 0) + ((1 # 2) + (1 # 2 ^ 22)))%Q; [|reflexivity].
    setoid_replace (inject_Z b + - inject_Z a)%Q with ((inject_Z b - t) + - (inject_Z a - t))%Q by ring.
    apply Qplus_le_compat; [exact B|]. rewrite <- (Qopp_involutive ((1 # 2) + (1 # 2 ^ 22))). apply Qopp_le_compat, A. }
  rewrite <- Zlt_Qlt in P, P'. lia.
Qed.
