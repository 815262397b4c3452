(** C06 and C07: the exact conditions. *)
From stdpp Require Import gmap.
From Coq Require Import ZArith.
From Verif Require Import Base StringModel StringSpec PrintfModel PrintfSpec PrintfProofs PrintfCutSpec PrintfCut PrintfExamples.
Local Open Scope N_scope.

(** C06: with a well-formed format and arguments of the right types a NUL is left in the buffer exactly when the text is shorter than
    the buffer (or itself has one among the characters that fit). *)
Theorem C06_exact : forall (m : gmap N N) (buf max : N) (ds : list directive) (args : list arg) (out : list N) (args' : list arg) (m0 : gmap N N),
  Forall wf_directive ds -> renders_all m0 ds args out args' ->
  0 < buf -> buf + max < 2 ^ 64 -> mapped m buf max ->
  (forall x v, m0 !! x = Some v -> m !! x = Some v /\ (x < buf \/ buf + max <= x)) ->
  exists m' e, snprintf m buf max (unparse ds) args = FOk (m', e) /\
    ((exists x, buf <= x < buf + max /\ m' !! x = Some 0) <-> N.of_nat (length out) < max \/ 0 ∈ take (N.to_nat max) out).
Proof. exact terminated_exact. Qed.
Print Assumptions C06_exact.
(** C07: every format is a sequence of directives, possibly followed by a conversion without its letter. *)
Theorem C07_formats : forall fmt : list N, Forall (fun c => c <> 0) fmt ->
  exists ds, Forall wf_directive ds /\ (fmt = unparse ds \/ exists w f fr, cut_ok w f fr /\ fmt = unparse ds ++ cut_text w f fr).
Proof. exact parse. Qed.
Print Assumptions C07_formats.
(** C07: in the second case the formatter reads behind the NUL exactly when the text before leaves room in the buffer and there is an
    argument for every star. (The first case is C07_no_overread_partial.) *)
Theorem C07_exact : forall (m : gmap N N) (buf max : N) (ds : list directive) (w f : list N) (fr : option (list N)) (args : list arg)
    (out : list N) (args' : list arg) (m0 : gmap N N),
  Forall wf_directive ds -> cut_ok w f fr -> renders_all m0 ds args out args' ->
  0 < buf -> buf + max < 2 ^ 64 -> mapped m buf max ->
  (forall x v, m0 !! x = Some v -> m !! x = Some v /\ (x < buf \/ buf + max <= x)) ->
  (snprintf m buf max (unparse ds ++ cut_text w f fr) args = FErr FmtOver <->
   N.of_nat (length out) < max /\ take_stars (stars_of f) args' None <> None).
Proof. exact cut_exact. Qed.
Print Assumptions C07_exact.
(** "a%04xd%c%s" then "%5*" *)
Example C07_exact_example :
  Forall wf_directive demo_format /\ cut_ok [53] [42] None /\ cut_text [53] [42] None = [37; 53; 42] /\
  renders_all demo_strings demo_format [A32 255; A32 66; APtr 200] [97; 48; 48; 102; 102; 66; 104; 105] [] /\
  mapped demo_buffer 1000 16 /\
  (forall x v, demo_strings !! x = Some v -> demo_buffer !! x = Some v /\ (x < 1000 \/ 1000 + 16 <= x)).
Proof. exact (conj (proj1 c08_demo) (conj (proj1 demo_cut_ok) (conj eq_refl (proj2 c08_demo)))). Qed.
