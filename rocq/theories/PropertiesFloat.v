(** C81: what %f prints. *)
From stdpp Require Import gmap.
From Coq Require Import ZArith QArith SpecFloat.
From Verif Require Import Base StringModel StringSpec PrintfModel PrintfSpec PrintfProofs FloatSpec FloatLoopProofs FloatExamples.
Local Open Scope N_scope.

(** C81, full claim: every format, %f included, prints the sign, the integer part and the nearest decimal
    fraction of the requested length of every double.  What holds: for finite doubles below 2^63 and at most nine
    fraction digits the printed decimal is within half a unit of the last digit and 2^-22 of one; without a precision
    it is the integer part; everything else in the format is as in C08.  Missing: exact rounding next to a tie,
    ten or more digits, large doubles, all of which are refuted below. *)
Theorem C81_float_partial : forall (m : gmap N N) (buf max : N) (ds : list directive) (args : list arg)
                                   (out0 : list N) (args' : list arg) (m0 : gmap N N),
  Forall wf_directive ds -> renders_all_f 0 m0 ds args out0 args' ->
  0 < buf -> buf + max < 2 ^ 64 -> mapped m buf max ->
  (forall x v, m0 !! x = Some v -> m !! x = Some v /\ (x < buf \/ buf + max <= x)) ->
  exists m' out, renders_all_f (1 # 2 ^ 22) m0 ds args out args' /\
             snprintf m buf max (unparse ds) args =
               FOk (m', buf + N.of_nat (length (take (N.to_nat max) (out ++ [0])))) /\
             text_written m buf (take (N.to_nat max) (out ++ [0])) m'.
Proof. exact snprintf_float. Qed.
Print Assumptions C81_float_partial.
(** "v=%5.3f%c" with -2.71875 and '!' stands for "v=-    2.719!". *)
Example C81_example :
  Forall wf_directive float_format /\ is_double demo_double /\
  renders_all_f 0 ∅ float_format [ADbl demo_double; A32 33] [118; 61; 45; 32; 32; 32; 32; 50; 46; 55; 49; 57; 33] [] /\
  mapped paper 1000 16.
Proof. exact c81_demo. Qed.

(** C81: the printed decimal is the correctly rounded one or its neighbour. *)
Theorem C81_neighbour : forall (v : Q) (k i q i' q' : N),
  decimal_of v k (1 # 2 ^ 22) i q -> decimal_of v k 0 i' q' ->
  (Z.abs (Z.of_N (i * 10 ^ k + q) - Z.of_N (i' * 10 ^ k + q')) <= 1)%Z.
Proof. exact decimals_close. Qed.
Print Assumptions C81_neighbour.
(** 3.7 with one digit; the tie 0.5 without digits has two roundings *)
Example C81_neighbour_example : decimal_of (37 # 10) 1 0 3 7 /\ decimal_of (1 # 2) 0 0 0 0 /\ decimal_of (1 # 2) 0 0 1 0.
Proof. repeat split; vm_compute; congruence. Qed.

(** C81: not always the nearest: %.1f of the double just below 0.05 prints 0.1. *)
Theorem C81_nearest_refuted :
  exists (x : spec_float) (m' : gmap N N) (e : N), is_double x /\ decimal_of (magnitude x) 1 0 0 0 /\ ~ decimal_of (magnitude x) 1 0 0 1 /\
    snprintf paper 1000 16 [37; 46; 49; 102] [ADbl x] = FOk (m', e) /\
    (forall i c, [48; 46; 49; 0] !! i = Some c -> m' !! (1000 + N.of_nat i) = Some c).
Proof. exact not_nearest. Qed.
Print Assumptions C81_nearest_refuted.

(** C81: %.10f of one half prints 0.0705032704. *)
Theorem C81_ten_digits_refuted :
  exists (x : spec_float) (m' : gmap N N) (e : N), is_double x /\ decimal_of (magnitude x) 10 0 0 5000000000 /\
    ~ decimal_of (magnitude x) 10 (10 ^ 9) 0 705032704 /\
    snprintf paper 1000 16 [37; 46; 49; 48; 102] [ADbl x] = FOk (m', e) /\
    (forall i c, [48; 46; 48; 55; 48; 53; 48; 51; 50; 55; 48; 52; 0] !! i = Some c -> m' !! (1000 + N.of_nat i) = Some c).
Proof. exact ten_digits. Qed.
Print Assumptions C81_ten_digits_refuted.

(** C81: %f without a precision prints no fraction (0.9 as 0), where C prints six digits. *)
Theorem C81_default_precision_refuted :
  exists (x : spec_float) (m' : gmap N N) (e : N), is_double x /\ ((9 # 10) - (1 # 10 ^ 15) < magnitude x)%Q /\
    snprintf paper 1000 16 [37; 102] [ADbl x] = FOk (m', e) /\
    (forall i c, [48; 0] !! i = Some c -> m' !! (1000 + N.of_nat i) = Some c).
Proof. exact no_precision. Qed.
Print Assumptions C81_default_precision_refuted.

(** C81: a double of magnitude 2^63 or more, an infinity and a NaN are all undefined behaviour. *)
Theorem C81_large_undefined : forall (bd : bounds) (m : gmap N N) (b : N) (w : list N) (fw : N) (x : spec_float),
  base bd <= b -> b < last bd ->
  (is_double x /\ (inject_Z (2 ^ 63) <= magnitude x)%Q) \/ match x with S754_infinity _ | S754_nan => True | _ => False end ->
  conv_float bd m b (pad_of w) (width_of w) fw x = FErr BadArg.
Proof. exact too_large. Qed.
Print Assumptions C81_large_undefined.
(** 2^63 *)
Example C81_large_example : is_double (S754_finite false 4503599627370496 11) /\
  (inject_Z (2 ^ 63) <= magnitude (S754_finite false 4503599627370496 11))%Q.
Proof. split; [split; [reflexivity|exact I]|vm_compute; discriminate]. Qed.
