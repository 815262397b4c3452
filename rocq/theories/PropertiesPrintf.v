(** C04-C08: sprintf_num, vslprintf, snprintf. *)
From stdpp Require Import gmap.
From Coq Require Import ZArith Lia.
From Verif Require Import Base StringModel StringSpec PrintfModel PrintfSpec PrintfProofs PrintfLoopProofs PrintfExamples.
Local Open Scope N_scope.

(** C04: a number is rendered as its numeral, padded on the left, cut only by the end of the buffer;
    the local digit array is never overrun (no [Wild]). *)
Theorem C04_number : forall (bd : bounds) (m : gmap N N) (buf n zero hexadecimal width : N),
  0 < base bd -> base bd <= buf -> buf <= last bd -> last bd < 2 ^ 64 -> n < 2 ^ 64 ->
  exists ds m',
    numeral (if hexadecimal =? 0 then 10 else 16) (negb (hexadecimal =? 0) && negb (hexadecimal =? 1)) n ds /\
    sprintf_num bd m buf n zero hexadecimal width =
      FOk (m', buf + N.of_nat (length (take (N.to_nat (last bd - buf)) (padded zero width ds)))) /\
    text_written m buf (take (N.to_nat (last bd - buf)) (padded zero width ds)) m'.
Proof. exact sprintf_num_exact. Qed.
Print Assumptions C04_number.
Example C04_example :
  exists m', sprintf_num {| base := 1000; last := 1040 |} ∅ 1000 (2 ^ 64 - 1) 32 0 25 = FOk (m', 1025) /\
             m' !! 1004 = Some 32 /\ m' !! 1005 = Some 49 /\ m' !! 1024 = Some 53.
Proof. eexists. split; [vm_compute; reflexivity|]. split; [|split]; vm_compute; reflexivity. Qed.

(** C04: the numeral of a number is unique, so the text above is determined. *)
Theorem C04_numeral_unique : forall (b : N) (upper : bool) (ds1 ds2 : list N) (n : N),
  2 <= b -> numeral b upper n ds1 -> numeral b upper n ds2 -> ds1 = ds2.
Proof. exact numeral_unique'. Qed.
Print Assumptions C04_numeral_unique.
Example C04_numeral_example : numeral 10 false 1024 [49; 48; 50; 52].
Proof. split; [reflexivity|]. split; [discriminate|]. intros cs' H. discriminate. Qed.

(** C05: whatever format and arguments, nothing outside [buf, last) changes, the result lies in
    [buf, last], and no store outside the buffer is attempted ([Wild]); the loop ends. *)
Theorem C05_in_buffer : forall (m : gmap N N) (buf lst : N) (fmt : list N) (args : list arg),
  0 < buf -> buf <= lst -> lst < 2 ^ 64 ->
  match vslprintf m buf lst fmt args with
  | FOk (m', e) => buf <= e /\ e <= lst /\ same_outside m m' buf lst
  | FErr er => er <> Wild /\ er <> NoFuel
  end.
Proof. exact vslprintf_safe. Qed.
Print Assumptions C05_in_buffer.
(** "%20d|" into six bytes: the output is cut. *)
Example C05_example :
  exists m', vslprintf ∅ 1000 1006 [37; 50; 48; 100; 124] [A32 7] = FOk (m', 1006) /\ m' !! 1006 = None.
Proof. eexists. split; vm_compute; reflexivity. Qed.

(** C06, full claim: every successful call on a non-empty buffer leaves a NUL in it.  It is false:
    "hello" into five bytes leaves no NUL. *)
Theorem C06_terminated_refuted :
  exists (m : gmap N N) (buf lst : N) (fmt : list N) (args : list arg) (m' : gmap N N) (e : N),
    0 < buf /\ buf < lst /\ vslprintf m buf lst fmt args = FOk (m', e) /\
    forall x, buf <= x -> x < lst -> m' !! x <> Some 0.
Proof. exact no_terminator. Qed.
Print Assumptions C06_terminated_refuted.

(** C06, what holds: the text is terminated just before the returned pointer unless the returned
    pointer is the end of the buffer.  Missing: the case of output that fills the buffer. *)
Theorem C06_terminated_partial : forall (m : gmap N N) (buf lst : N) (fmt : list N) (args : list arg) m' e,
  vslprintf m buf lst fmt args = FOk (m', e) ->
  (buf < e /\ m' !! (e - 1) = Some 0) \/ lst <= e.
Proof. exact vslprintf_terminated. Qed.
Print Assumptions C06_terminated_partial.
Example C06_example :
  exists m', vslprintf ∅ 1000 1006 [104; 101; 108; 108; 111] [] = FOk (m', 1006) /\ m' !! 1005 = Some 0.
Proof. eexists. split; vm_compute; reflexivity. Qed.

(** C07, full claim: no format makes the formatter read behind the terminating NUL of the format.
    It is false: a format ending in '%' does. *)
Theorem C07_no_overread_refuted :
  exists (m : gmap N N) (buf lst : N) (fmt : list N) (args : list arg),
    0 < buf /\ buf < lst /\ Forall (fun c => c <> 0) fmt /\ vslprintf m buf lst fmt args = FErr FmtOver.
Proof. exact percent_overread. Qed.
Print Assumptions C07_no_overread_refuted.

(** C07, what holds: a format made of complete conversions and ordinary characters is never read
    past its end, whatever the arguments (even missing or of the wrong type).
    Missing: formats that end inside a conversion. *)
Theorem C07_no_overread_partial : forall (m : gmap N N) (buf lst : N) (ds : list directive) (args : list arg),
  Forall wf_directive ds -> vslprintf m buf lst (unparse ds) args <> FErr FmtOver.
Proof. exact vslprintf_nofmt. Qed.
Print Assumptions C07_no_overread_partial.
(** "%5.2*d%" cut short is not such a format, "%*d%%" is, and fails for want of arguments only. *)
Example C07_example :
  Forall wf_directive [Conv [] [42] None 100; Conv [] [] None 37] /\
  unparse [Conv [] [42] None 100; Conv [] [] None 37] = [37; 42; 100; 37; 37] /\
  vslprintf ∅ 1000 1010 [37; 42; 100; 37; 37] [] = FErr BadArg.
Proof. exact c07_demo. Qed.

(** C08, full claim: every well-formed format prints, for every argument list of the right types, the
    text its directives stand for, followed by a NUL and cut at the end of the buffer, and changes
    nothing else.  Missing: %f (see C81), and the integer argument -2^63, whose negation is undefined. *)
Theorem C08_format_partial : forall (m : gmap N N) (buf max : N) (ds : list directive) (args : list arg)
                                    (out : list N) (args' : list arg) (m0 : gmap N N),
  Forall wf_directive ds -> renders_all m0 ds args out args' ->
  0 < buf -> buf + max < 2 ^ 64 -> mapped m buf max ->
  (forall x v, m0 !! x = Some v -> m !! x = Some v /\ (x < buf \/ buf + max <= x)) ->
  exists m', snprintf m buf max (unparse ds) args =
               FOk (m', buf + N.of_nat (length (take (N.to_nat max) (out ++ [0])))) /\
             text_written m buf (take (N.to_nat max) (out ++ [0])) m'.
Proof. exact snprintf_renders. Qed.
Print Assumptions C08_format_partial.
(** "a%04xd%c%s" with 255, 'B' and a string "hi" stands for "a00ffBhi". *)
Example C08_example :
  Forall wf_directive demo_format /\
  renders_all demo_strings demo_format [A32 255; A32 66; APtr 200] [97; 48; 48; 102; 102; 66; 104; 105] [] /\
  mapped demo_buffer 1000 16 /\
  (forall x v, demo_strings !! x = Some v -> demo_buffer !! x = Some v /\ (x < 1000 \/ 1000 + 16 <= x)).
Proof. exact c08_demo. Qed.

(** C08: -2^63 printed with %l runs into the undefined negation. *)
Theorem C08_int64_min_refuted :
  exists (m : gmap N N) (buf max : N), 0 < buf /\ 30 <= max /\
    snprintf m buf max (unparse [Conv [] [] None 108]) [A64 (2 ^ 63)] = FErr BadArg.
Proof. exact int64_min_undefined. Qed.
Print Assumptions C08_int64_min_refuted.
