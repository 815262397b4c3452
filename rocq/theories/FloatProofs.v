(** Rounding errors of the %f conversion (C81), with the real numbers of the standard library and Flocq. *)
From Coq Require Import ZArith Reals Lra Lia QArith Qreals SpecFloat.
From Flocq Require Import Core BinarySingleNaN.
Local Open Scope Z_scope.

Local Notation prec := 53.
Local Notation emax := 1024.
Local Notation bin := (binary_float 53 1024).
Local Notation fx := (SpecFloat.fexp 53 1024).
#[local] Instance Hprec : Prec_gt_0 53 := eq_refl.
#[local] Instance Hmax : Prec_lt_emax 53 1024 := eq_refl.
Local Notation RN := (round radix2 fx ZnearestE).
Local Notation fmt := (generic_format radix2 fx).

Lemma rne_equiv s m l : round_nearest_even m l = choice_mode mode_NE s m l.
Proof. destruct l as [|[]]; try reflexivity. cbn. unfold Round.cond_incr. now case Z.even. Qed.
Lemma bra_equiv s m e l : SpecFloat.binary_round_aux 53 1024 s m e l = BinarySingleNaN.binary_round_aux 53 1024 mode_NE s m e l.
Proof.
  unfold SpecFloat.binary_round_aux, BinarySingleNaN.binary_round_aux.
  set (x := shr_fexp _ _ _). case x; intros a b. cbn. now rewrite (rne_equiv s).
Qed.
Lemma br_equiv s m e : SpecFloat.binary_round 53 1024 s m e = BinarySingleNaN.binary_round 53 1024 mode_NE s m e.
Proof.
  unfold SpecFloat.binary_round, BinarySingleNaN.binary_round, shl_align_fexp.
  set (x := shl_align _ _ _). case x. intros. apply bra_equiv.
Qed.
Lemma bn_equiv m e z : SpecFloat.binary_normalize 53 1024 m e z = B2SF (BinarySingleNaN.binary_normalize 53 1024 _ _ mode_NE m e z).
Proof. case m as [|p|p]; [reflexivity|..]; cbn; rewrite B2SF_SF2B; apply br_equiv. Qed.
Lemma mul_equiv (x y : bin) : SFmul 53 1024 (B2SF x) (B2SF y) = B2SF (Bmult mode_NE x y).
Proof.
  case x as [sx|sx| |sx mx ex Bx]; case y as [sy|sy| |sy my ey By]; [now trivial..|].
  cbn. rewrite B2SF_SF2B. apply bra_equiv.
Qed.
Lemma add_equiv (x y : bin) : SFadd 53 1024 (B2SF x) (B2SF y) = B2SF (Bplus mode_NE x y).
Proof.
  case x as [sx|sx| |sx mx ex Bx]; case y as [sy|sy| |sy my ey By]; [now (trivial || cbn; case Bool.eqb)..|].
  apply bn_equiv.
Qed.
Lemma sub_equiv (x y : bin) : SFsub 53 1024 (B2SF x) (B2SF y) = B2SF (Bminus mode_NE x y).
Proof.
  case x as [sx|sx| |sx mx ex Bx]; case y as [sy|sy| |sy my ey By]; [now (trivial || cbn; case Bool.eqb)..|].
  cbn. unfold Z.sub. rewrite <- cond_Zopp_negb. apply bn_equiv.
Qed.

(** ** Values below 2^64 do not overflow *)
Lemma small_ok r : (Rabs r <= bpow radix2 100)%R -> Rlt_bool (Rabs (RN r)) (bpow radix2 emax) = true.
Proof.
  intros H. apply Rlt_bool_true. apply Rle_lt_trans with (bpow radix2 100); [|apply bpow_lt; lia].
  apply abs_round_le_generic; [typeclasses eauto..| |exact H].
  apply generic_format_bpow. cbn. lia.
Qed.
Lemma format_small m e : Z.abs m < 2 ^ 53 -> -1074 <= e -> fmt (F2R (Float radix2 m e)).
Proof.
  intros Hm He. apply generic_format_FLT. exists (Float radix2 m e); [reflexivity|exact Hm|exact He].
Qed.
Lemma format_Z z : Z.abs z < 2 ^ 53 -> fmt (IZR z).
Proof. intros H. replace (IZR z) with (F2R (Float radix2 z 0)) by (unfold F2R; cbn; lra). apply format_small; lia. Qed.

Definition nonneg (x : bin) : Prop := is_finite x = true /\ (0 <= B2R x)%R.

Lemma of_Z z : fmt (IZR z) -> (Rabs (IZR z) <= bpow radix2 100)%R ->
  exists y : bin, SpecFloat.binary_normalize 53 1024 z 0 false = B2SF y /\ B2R y = IZR z /\ is_finite y = true.
Proof.
  intros F S. rewrite bn_equiv. eexists. split; [reflexivity|].
  pose proof (BinarySingleNaN.binary_normalize_correct 53 1024 _ _ mode_NE z 0 false) as C. cbv zeta in C.
  replace (F2R (Float radix2 z 0)) with (IZR z) in C by (unfold F2R; cbn; lra).
  change (round_mode mode_NE) with ZnearestE in C. rewrite small_ok in C by exact S.
  destruct C as (C1 & C2 & _). split; [|exact C2]. rewrite C1. apply round_generic; [typeclasses eauto|exact F].
Qed.
Lemma half_val : exists y : bin, SpecFloat.binary_normalize 53 1024 1 (-1) false = B2SF y /\ B2R y = (1/2)%R /\ is_finite y = true.
Proof.
  rewrite bn_equiv. eexists. split; [reflexivity|].
  pose proof (BinarySingleNaN.binary_normalize_correct 53 1024 _ _ mode_NE 1 (-1) false) as C. cbv zeta in C.
  assert (E : F2R (Float radix2 1 (-1)) = (1/2)%R) by (unfold F2R; cbn; lra).
  change (round_mode mode_NE) with ZnearestE in C. rewrite small_ok in C.
  - destruct C as (C1 & C2 & _). split; [|exact C2]. rewrite C1, E. apply round_generic; [typeclasses eauto|].
    rewrite <- E. apply format_small; cbn; lia.
  - rewrite E. rewrite Rabs_pos_eq by lra. change (bpow radix2 100) with (IZR (2 ^ 100)). apply Rle_trans with 1%R; [lra|].
    apply IZR_le. cbv. discriminate.
Qed.

(** ** Truncation *)
Definition trunc (f : spec_float) : option Z :=
  match f with
  | S754_zero _ => Some 0%Z
  | S754_finite s m e =>
      let a := match e with
               | Z0 => Zpos m
               | Zpos p => (Zpos m * 2 ^ Zpos p)%Z
               | Zneg p => (Zpos m / 2 ^ Zpos p)%Z
               end in
      Some (if s then - a else a)%Z
  | _ => None
  end.
Lemma bpow_pos p : bpow radix2 (Zpos p) = IZR (2 ^ Zpos p).
Proof. rewrite <- IZR_Zpower by lia. reflexivity. Qed.
Lemma pos_val m e : F2R (Float radix2 (Zpos m) e) =
  match e with Z0 => IZR (Zpos m) | Zpos p => IZR (Zpos m * 2 ^ Zpos p) | Zneg p => (IZR (Zpos m) / IZR (2 ^ Zpos p))%R end.
Proof.
  unfold F2R. cbn [Fnum Fexp]. destruct e as [|p|p].
  - cbn. lra.
  - rewrite bpow_pos, <- mult_IZR. reflexivity.
  - change (Zneg p) with (- Zpos p)%Z. rewrite bpow_opp, bpow_pos. reflexivity.
Qed.
Lemma pow2_pos p : 0 < 2 ^ Zpos p.
Proof. apply Z.pow_pos_nonneg; lia. Qed.

Lemma sign_nonneg (x : bin) s m e H : x = B754_finite s m e H -> (0 <= B2R x)%R -> s = false.
Proof.
  intros -> P. destruct s; [|reflexivity]. exfalso. cbn [B2R cond_Zopp] in P.
  assert (F2R (Float radix2 (- Zpos m) e) < 0)%R by (apply F2R_lt_0; cbn; lia). lra.
Qed.
Lemma trunc_floor (x : bin) : nonneg x -> trunc (B2SF x) = Some (Zfloor (B2R x)).
Proof.
  intros [F P]. destruct x as [s|s| |s m e H] eqn:X; try discriminate.
  - cbn. rewrite (Zfloor_IZR 0). reflexivity.
  - pose proof (sign_nonneg _ _ _ _ _ eq_refl P) as ->. cbn [B2R cond_Zopp B2SF trunc]. f_equal.
    rewrite pos_val. destruct e as [|p|p].
    + symmetry; apply Zfloor_IZR.
    + symmetry; apply Zfloor_IZR.
    + symmetry. apply Zfloor_div. pose proof (pow2_pos p). lia.
Qed.

(** the integer part is a double, and subtracting it is exact *)
Lemma mant_small m e : bounded 53 1024 m e = true -> Zpos m < 2 ^ 53 /\ -1074 <= e.
Proof.
  unfold bounded, canonical_mantissa. intros H. apply andb_prop in H as [H _]. apply Zeq_bool_eq in H.
  rewrite Digits.Zpos_digits2_pos in H. unfold SpecFloat.fexp, SpecFloat.emin in H.
  pose proof (Digits.Zdigits_correct radix2 (Zpos m)) as [_ D]. cbn [Z.abs] in D.
  split; [|lia]. eapply Z.lt_le_trans; [exact D|]. change (2 ^ 53) with (Zpower radix2 53). apply Zpower_le. lia.
Qed.
Lemma split_parts (x : bin) : nonneg x -> fmt (IZR (Zfloor (B2R x))) /\ fmt (B2R x - IZR (Zfloor (B2R x))).
Proof.
  intros [F P]. destruct x as [s|s| |s m e H] eqn:X; try discriminate.
  - cbn [B2R]. rewrite (Zfloor_IZR 0). rewrite Rminus_0_r. split; apply generic_format_0.
  - pose proof (sign_nonneg _ _ _ _ _ eq_refl P) as ->. destruct (mant_small m e H) as [Hm He].
    cbn [B2R cond_Zopp]. pose proof (generic_format_B2R 53 1024 (B754_finite false m e H)) as G. cbn [B2R cond_Zopp] in G.
    rewrite pos_val in *. destruct e as [|p|p].
    + rewrite Zfloor_IZR, Rminus_diag_eq by reflexivity. split; [exact G|apply generic_format_0].
    + rewrite Zfloor_IZR, Rminus_diag_eq by reflexivity. split; [exact G|apply generic_format_0].
    + rewrite Zfloor_div by (pose proof (pow2_pos p); lia).
      pose proof (pow2_pos p) as Hp. split.
      * apply format_Z. pose proof (Z.div_pos (Zpos m) _ ltac:(lia) Hp).
        pose proof (Z.div_le_upper_bound (Zpos m) (2 ^ Zpos p) (Zpos m) Hp ltac:(nia)). lia.
      * replace (IZR (Zpos m) / IZR (2 ^ Zpos p) - IZR (Zpos m / 2 ^ Zpos p))%R with (F2R (Float radix2 (Zpos m mod 2 ^ Zpos p) (Zneg p))).
        { apply format_small; [|exact He]. pose proof (Z.mod_pos_bound (Zpos m) _ Hp).
          pose proof (Z.mod_le (Zpos m) (2 ^ Zpos p) ltac:(lia) Hp). lia. }
        unfold F2R. cbn [Fnum Fexp]. change (Zneg p) with (- Zpos p)%Z. rewrite bpow_opp, bpow_pos.
        rewrite Z.mod_eq by lia. rewrite minus_IZR, mult_IZR. field. apply IZR_neq. lia.
Qed.

Lemma err r : (0 <= r <= IZR (2 ^ 30))%R -> (Rabs (RN r - r) <= / IZR (2 ^ 23))%R.
Proof.
  intros H. eapply Rle_trans; [apply error_le_half_ulp; typeclasses eauto|].
  assert (U : (ulp radix2 fx r <= ulp radix2 fx (bpow radix2 30))%R).
  { apply ulp_le; [typeclasses eauto..|]. rewrite !Rabs_pos_eq; [|apply bpow_ge_0|lra]. change (bpow radix2 30) with (IZR (2 ^ 30)). lra. }
  rewrite ulp_bpow in U. change (fx (30 + 1)) with (-22) in U.
  change (bpow radix2 (-22)) with (/ IZR (2 ^ 22))%R in U.
  replace (/ IZR (2 ^ 23))%R with (/2 * / IZR (2 ^ 22))%R; [lra|]. change (2 ^ 23) with (2 * 2 ^ 22). rewrite mult_IZR. field. apply IZR_neq. lia.
Qed.

(** the fraction digits of a double below 2^63, for a scale of at most 10^9 *)
Lemma fraction (x : bin) s : nonneg x -> (B2R x < IZR (2 ^ 63))%R -> 1 <= s <= 10 ^ 9 ->
  exists fr, trunc (SFadd 53 1024
    (SFmul 53 1024 (SFsub 53 1024 (B2SF x) (SpecFloat.binary_normalize 53 1024 (Zfloor (B2R x)) 0 false)) (SpecFloat.binary_normalize 53 1024 s 0 false))
    (SpecFloat.binary_normalize 53 1024 1 (-1) false)) = Some fr /\ 0 <= fr <= s /\
  (Rabs (IZR fr - (B2R x - IZR (Zfloor (B2R x))) * IZR s) <= 1/2 + / IZR (2 ^ 22))%R.
Proof.
  intros N B S. destruct (split_parts x N) as [Fi Fg]. destruct N as [F P].
  pose proof (Zfloor_lb (B2R x)) as L. pose proof (Zfloor_ub (B2R x)) as U.
  assert (I0 : (0 <= IZR (Zfloor (B2R x)))%R) by (apply IZR_le, Zfloor_lub; exact P).
  assert (big : (IZR (2 ^ 63) <= bpow radix2 100)%R) by (change (bpow radix2 100) with (IZR (2 ^ 100)); apply IZR_le; cbv; discriminate).
  destruct (of_Z (Zfloor (B2R x)) Fi) as (yi & -> & Vi & Ki). { rewrite Rabs_pos_eq by exact I0. lra. }
  assert (Hs : (1 <= IZR s <= IZR (10 ^ 9))%R) by (split; apply IZR_le; lia).
  assert (s30 : (IZR (10 ^ 9) + 1 / 2 <= IZR (2 ^ 30))%R).
  { replace (IZR (2 ^ 30))%R with (IZR (10 ^ 9) + IZR (2 ^ 30 - 10 ^ 9))%R by (rewrite <- plus_IZR; reflexivity).
    assert (1 <= IZR (2 ^ 30 - 10 ^ 9))%R by (apply IZR_le; cbv; discriminate). lra. }
  assert (b30 : (IZR (2 ^ 30) <= bpow radix2 100)%R) by (change (bpow radix2 100) with (IZR (2 ^ 100)); apply IZR_le; cbv; discriminate).
  assert (Fs : fmt (IZR s)) by (apply format_Z; lia).
  destruct (of_Z s Fs) as (ys & -> & Vs & Ks). { rewrite Rabs_pos_eq by lra. lra. }
  destruct half_val as (yh & -> & Vh & Kh).
  rewrite sub_equiv, mul_equiv, add_equiv.
  set (g := (B2R x - IZR (Zfloor (B2R x)))%R) in *.
  assert (G : (0 <= g < 1)%R) by (unfold g; lra).
  (* subtraction *)
  pose proof (Bminus_correct 53 1024 _ _ mode_NE x yi F Ki) as C. change (round_mode mode_NE) with ZnearestE in C.
  rewrite Vi in C. fold g in C. rewrite small_ok in C by (rewrite Rabs_pos_eq by lra; lra).
  destruct C as (V1 & K1 & _). rewrite round_generic in V1 by (typeclasses eauto || exact Fg).
  set (y1 := Bminus mode_NE x yi) in *.
  (* multiplication *)
  assert (M : (0 <= g * IZR s <= IZR s)%R) by nra.
  pose proof (Bmult_correct 53 1024 _ _ mode_NE y1 ys) as C. change (round_mode mode_NE) with ZnearestE in C.
  rewrite V1, Vs in C. rewrite small_ok in C by (rewrite Rabs_pos_eq by lra; lra).
  destruct C as (V2 & K2 & _). rewrite K1, Ks in K2. cbn in K2.
  set (y2 := Bmult mode_NE y1 ys) in *.
  pose proof (err (g * IZR s) ltac:(lra)) as E2. rewrite <- V2 in E2.
  assert (H2 : (0 <= B2R y2 <= IZR s)%R).
  { rewrite V2. split.
    - apply round_ge_generic; [typeclasses eauto..|apply generic_format_0|lra].
    - apply round_le_generic; [typeclasses eauto..|exact Fs|lra]. }
  (* addition *)
  pose proof (Bplus_correct 53 1024 _ _ mode_NE y2 yh K2 Kh) as C. change (round_mode mode_NE) with ZnearestE in C.
  rewrite Vh in C. rewrite small_ok in C by (rewrite Rabs_pos_eq by lra; lra).
  destruct C as (V3 & K3 & _). set (y3 := Bplus mode_NE y2 yh) in *.
  pose proof (err (B2R y2 + 1 / 2) ltac:(lra)) as E3. rewrite <- V3 in E3.
  assert (Fsh : fmt (IZR s + 1 / 2)%R).
  { replace (IZR s + 1 / 2)%R with (F2R (Float radix2 (2 * s + 1) (-1))) by (unfold F2R; cbn [Fnum Fexp]; rewrite plus_IZR, mult_IZR; cbn; field).
    apply format_small; lia. }
  assert (H3 : (0 <= B2R y3 <= IZR s + 1 / 2)%R).
  { rewrite V3. split.
    - apply round_ge_generic; [typeclasses eauto..|apply generic_format_0|lra].
    - apply round_le_generic; [typeclasses eauto..|exact Fsh|lra]. }
  exists (Zfloor (B2R y3)). split; [apply trunc_floor; split; [exact K3|lra]|].
  pose proof (Zfloor_lb (B2R y3)) as L3. pose proof (Zfloor_ub (B2R y3)) as U3.
  split.
  - split; [apply Zfloor_lub; lra|]. apply le_IZR. 
    assert (Zfloor (B2R y3) < s + 1) by (apply lt_IZR; rewrite plus_IZR; lra). apply IZR_le. lia.
  - apply Rabs_le_inv in E2, E3. apply Rabs_le.
    replace (/ IZR (2 ^ 22))%R with (2 * / IZR (2 ^ 23))%R by (change (2 ^ 23) with (2 * 2 ^ 22); rewrite mult_IZR; field; apply IZR_neq; lia).
    lra.
Qed.
