(** Proofs about owners of arrays. *)
From stdpp Require Import list.
From Coq Require Import NArith Lia ZifyBool ZifyN.
From Verif Require Import TraitsModel TraitsSpec UpcastModel UpcastSpec UpcastProofs UpcastArrayModel UpcastArraySpec.
Local Open Scope N_scope.

Lemma same_basic_eq a b : same_basic a b = true <-> a = b.
Proof.
  split; [|intros ->; destruct b; cbn; rewrite ?N.eqb_refl; reflexivity].
  destruct a, b; cbn; intros H; try discriminate H; try reflexivity; apply N.eqb_eq in H as ->; reflexivity.
Qed.
Lemma requalified_eq h U T : ptr_converts h U T = true /\ ob U = ob T <-> requalified U T.
Proof.
  unfold ptr_converts, requalified. split.
  - intros [H E]. rewrite !Bool.andb_true_iff in H. destruct H as [[A B] _].
    split; [exact E|]. split; intros C; rewrite C in *; [exact A|exact B].
  - intros (E & A & B). split; [|exact E]. rewrite !Bool.andb_true_iff, E.
    replace (same_basic (ob T) (ob T)) with true by (symmetry; apply same_basic_eq; reflexivity).
    destruct (is_c (oq U)), (is_v (oq U)); cbn; rewrite ?A, ?B by reflexivity; auto.
Qed.
Lemma requalified_refl U : requalified U U.
Proof. split; [reflexivity|]. split; auto. Qed.

Theorem array_exact h d s T :
  (array_life h d s T = Fine <-> std_array d s T /\ ~ lacking_array d s T).
Proof.
  unfold array_life, destroy, delete_array. destruct s as [|U|U r]; cbn [array_converts holds].
  - split.
    + destruct d; [|intros H; discriminate H]. intros _. split; [constructor|]. intros H. inversion H.
    + intros [_ H]. destruct d; [reflexivity|]. elim H. constructor.
  - split.
    + destruct d; [|intros H; discriminate H]. cbn [andb].
      destruct (ptr_converts h U T) eqn:P; [|intros H; discriminate H].
      destruct (same_basic (ob T) (ob U)) eqn:S; [|intros H; discriminate H]. intros _.
      apply same_basic_eq in S. split; [|intros H; inversion H]. constructor. apply (requalified_eq h). split; [exact P|auto].
    + intros [H _]. inversion H as [|? ? R|]; subst. apply (requalified_eq h) in R as [-> E]. cbn [andb]. rewrite E.
      replace (same_basic (ob T) (ob T)) with true by (symmetry; apply same_basic_eq; reflexivity). reflexivity.
  - split.
    + destruct r; [|intros H; discriminate H]. cbn [andb].
      destruct (same_type T U) eqn:S; [|intros H; discriminate H]. apply same_type_eq in S as ->. intros _.
      split; [constructor; apply requalified_refl|]. intros H. inversion H; subst. congruence.
    + intros [H L]. inversion H as [| |? ? ? R]; subst. cbn [andb].
      destruct (same_type T U) eqn:S.
      * apply same_type_eq in S as ->. replace (same_basic (ob U) (ob U)) with true by (symmetry; apply same_basic_eq; reflexivity). reflexivity.
      * elim L. constructor. intros ->. assert (same_type T T = true) by (apply same_type_eq; reflexivity). congruence.
Qed.
Theorem array_undefined h d s T : object T ->
  (array_life h d s T = Undefined <-> d = true /\ exists U, s = ANew U /\ up h U T /\ ob U <> ob T).
Proof.
  intros HT. unfold array_life, destroy, delete_array. destruct s as [|U|U r]; cbn [array_converts holds].
  - split; [destruct d; intros H; discriminate H|]. intros (_ & U & E & _). discriminate E.
  - split.
    + destruct d; [|intros H; discriminate H]. cbn [andb].
      destruct (ptr_converts h U T) eqn:P; [|intros H; discriminate H].
      destruct (same_basic (ob T) (ob U)) eqn:S; [intros H; discriminate H|]. intros _. split; [reflexivity|].
      exists U. split; [reflexivity|]. split; [apply (up_eq h U T HT), P|]. intros E. rewrite E in S.
      assert (same_basic (ob T) (ob T) = true) by (apply same_basic_eq; reflexivity). congruence.
    + intros (-> & V & E & P & N). injection E as <-. apply (up_eq h U T HT) in P. rewrite P. cbn [andb].
      destruct (same_basic (ob T) (ob U)) eqn:S; [apply same_basic_eq in S; congruence|reflexivity].
  - split; [|intros (_ & V & E & _); discriminate E]. destruct r; [|intros H; discriminate H]. cbn [andb].
    destruct (same_type T U) eqn:S; [|intros H; discriminate H]. apply same_type_eq in S as ->.
    replace (same_basic (ob U) (ob U)) with true by (symmetry; apply same_basic_eq; reflexivity). intros H. discriminate H.
Qed.
Theorem array_made h T : make_array h T = Fine.
Proof. apply array_exact. split; [constructor; apply requalified_refl|]. intros H. inversion H. Qed.
Lemma array_wrong : exists h U T, sane h /\ is_class U /\ is_class T /\
  ~ std_array true (ANew U) T /\ array_life h true (ANew U) T = Undefined.
Proof.
  exists zoo, (cls 1), (cls 0). split; [exact zoo_sane|]. split; [exists 1; reflexivity|]. split; [exists 0; reflexivity|].
  split; [|reflexivity]. intros H. inversion H as [|? ? R|]; subst. destruct R as [E _]. discriminate E.
Qed.
Lemma array_missing : exists h U T, object T /\
  std_array true (AUnique U true) T /\ array_life h true (AUnique U true) T = Rejected /\
  std_array false ANull T /\ array_life h false ANull T = Rejected.
Proof.
  exists zoo, int_, (const_ int_). split; [discriminate|]. split; [constructor; split; [reflexivity|split; auto]|].
  split; [reflexivity|]. split; [constructor|reflexivity].
Qed.
Lemma array_demo : std_array true (ANew (cls 1)) (const_ (cls 1)) /\ ~ lacking_array true (ANew (cls 1)) (const_ (cls 1)) /\
  array_life zoo true (ANew (cls 1)) (const_ (cls 1)) = Fine /\ object (cls 0) /\ up zoo (cls 1) (cls 0) /\ ob (cls 1) <> ob (cls 0).
Proof.
  split; [constructor; split; [reflexivity|split; auto]|]. split; [intros H; inversion H|]. split; [reflexivity|]. split; [discriminate|].
  split; [apply im_base; [reflexivity|split; auto]|discriminate].
Qed.
