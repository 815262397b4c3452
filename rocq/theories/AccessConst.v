(** C102: proofs, continued: paths and constness. *)
From Coq Require Import List Bool.
From Verif Require Import AccessSpec AccessModel AccessProofs.
Import ListNotations.

Lemma estl_step_exists m e e' : exists_ (type e) = true -> estl_step m e = Some e' -> exists_ (type e') = true.
Proof.
  destruct e as [t c l]; cbn [type]; intros R H.
  destruct t as [n|k t|a b|d t|d t|d t|k d t|k d t]; cbn in R.
  all: try apply andb_prop in R as [R1 R2].
  all: try (destruct k; try discriminate R1).
  all: try (destruct d).
  all: try discriminate R1.
  all: destruct m, c, l; try discriminate H; cbn in H; injection H as <-; cbn; rewrite ?R, ?R1, ?R2; reflexivity.
Qed.
Lemma path_exact l e : exists_ (type e) = true -> path l e = estl_path l e.
Proof.
  revert e; induction l as [|m l IH]; intros e R; [reflexivity|].
  cbn [path estl_path]. rewrite (step_exact m e R).
  destruct (estl_step m e) as [e'|] eqn:H; [|reflexivity].
  cbn [ibind]. apply IH. exact (estl_step_exists m e e' R H).
Qed.
Lemma path_usual l e : exists_ (type e) = true -> usual l e -> path l e = std_path l e.
Proof.
  intros R U. rewrite (path_exact l e R). clear R. revert e U; induction l as [|m l IH]; intros e U; [reflexivity|].
  destruct U as [D U]. cbn [estl_path std_path]. unfold estl_step. rewrite D.
  destruct (std_step m e) as [e'|]; [|reflexivity]. apply IH, U.
Qed.

Definition shows (c : bool) (e : expr) : Prop :=
  match type e with
  | Ptr d t | It _ d t | RIt _ d t => plain t = true /\ d = c
  | t => plain t = true /\ const e = c
  end.
Lemma plain_exists t : plain t = true -> exists_ t = true.
Proof.
  induction t; cbn; intros H; try discriminate H; try reflexivity; [apply IHt, H|].
  apply andb_prop in H as [H1 H2]. rewrite IHt1, IHt2 by assumption. reflexivity.
Qed.
Lemma shows_plain c t d l : plain t = true -> d = c -> shows c (E t d l).
Proof. intros P ->. destruct t; try discriminate P; split; auto. Qed.
Lemma shows_step c m e e' : shows c e -> copies m e = false -> leaks m e = false -> estl_step m e = Some e' -> shows (c || locks m e) e'.
Proof.
  destruct e as [t k l]; intros S C L H.
  destruct t as [n|q t|a b|d t|d t|d t|q d t|q d t]; destruct S as [S1 S2]; cbn in S1, S2; subst; try discriminate S1.
  - destruct m; discriminate H || (cbn in C; discriminate C).
  - destruct m, q; try discriminate H; try discriminate C; destruct c; try discriminate H; try discriminate L; cbn in H; injection H as <-;
      cbn; try (apply shows_plain; [assumption|reflexivity]); split; auto; cbn in C; congruence.
  - apply andb_prop in S1 as [S1 S3]. destruct m; try discriminate H; cbn in C; try (rewrite S1, S3 in C; discriminate C).
    + injection H as <-. rewrite orb_false_r. apply shows_plain; auto.
    + injection H as <-. rewrite orb_false_r. apply shows_plain; auto.
  - destruct m, k, l; try discriminate H; cbn in H; injection H as <-; cbn; rewrite ?orb_false_r;
      try (apply shows_plain; [assumption|reflexivity]); split; auto.
  - destruct q, m, k, c, l; try discriminate H; cbn in H; injection H as <-; cbn;
      try (apply shows_plain; [assumption|reflexivity]); split; auto.
  - destruct q, m, k, l; try discriminate H; cbn in H; injection H as <-; cbn; rewrite ?orb_false_r;
      try (apply shows_plain; [assumption|reflexivity]); split; auto.
Qed.
Lemma shows_path c l e e' : shows c e -> along copies l e = false -> along leaks l e = false -> estl_path l e = Some e' ->
  shows (c || along locks l e) e'.
Proof.
  revert c e; induction l as [|m l IH]; intros c e S C L H.
  - injection H as <-. rewrite orb_false_r. exact S.
  - cbn [along estl_path] in *. apply orb_false_elim in C as [C1 C2], L as [L1 L2].
    destruct (estl_step m e) as [e1|] eqn:H1; [|discriminate H].
    rewrite orb_assoc. apply IH; auto. exact (shows_step c m e e1 S C1 L1 H1).
Qed.
Lemma const_exact l t c v e' : plain t = true -> along copies l (E t c v) = false -> along leaks l (E t c v) = false ->
  path l (E t c v) = Some e' -> plain (type e') = true -> const e' = c || along locks l (E t c v).
Proof.
  intros P C L H Q. rewrite path_exact in H by (apply plain_exists, P).
  pose proof (shows_path c l _ e' (shows_plain c t c v P eq_refl) C L H) as S.
  destruct e' as [u d w]; cbn [type] in Q. destruct u; try discriminate Q; destruct S as [_ S]; exact S.
Qed.
