(** Proofs for the conversions between smart pointers (C106). *)
From stdpp Require Import list.
From Coq Require Import NArith Lia ZifyBool ZifyN.
From Verif Require Import TraitsModel TraitsSpec UpcastModel UpcastSpec.
Local Open Scope N_scope.

Lemma same_basic_eq a b : same_basic a b = true <-> a = b.
Proof.
  split.
  - destruct a, b; cbn; intros H; try discriminate H; try reflexivity; f_equal; lia.
  - intros <-. destruct a; cbn; try reflexivity; apply N.eqb_refl.
Qed.
Lemma same_type_eq T U : same_type T U = true <-> T = U.
Proof.
  unfold same_type. destruct T as [[c v] b], U as [[c' v'] b']. cbn [oq ob is_c is_v]. rewrite !Bool.andb_true_iff, !Bool.eqb_true_iff, same_basic_eq.
  split; [intros [[-> ->] ->]; reflexivity|]. intros H. injection H as -> -> ->. auto.
Qed.
Lemma more_q q q' : (negb (is_c q) || is_c q') && (negb (is_v q) || is_v q') = true <-> more_qualified q q'.
Proof.
  unfold more_qualified. destruct q as [[] []], q' as [[] []]; cbn; split; try discriminate; try tauto; try (intros [A B]; exfalso; (discriminate (A eq_refl) || discriminate (B eq_refl))).
Qed.
Lemma up_eq h U T : object T -> (ptr_converts h U T = true <-> up h U T).
Proof.
  intros HT. unfold ptr_converts. rewrite Bool.andb_true_iff, more_q, Bool.orb_true_iff, same_basic_eq. destruct T as [q' b'], U as [q b]. unfold object in HT. cbn [oq ob] in *. unfold up, pointee. cbn [oq ob]. split.
  - intros [M [->|R]].
    + apply im_qual; [constructor; exact M|reflexivity].
    + destruct b, b'; try discriminate R. apply im_base; [exact R|exact M].
  - intros H. inversion H as [t u A1 A2|p0 q0 t u R O|p0 q0 t q1 R O|p0 q0 a b0 q1 q2 R M]; subst.
    + discriminate A1.
    + inversion R; subst. auto.
    + now elim HT.
    + split; [exact M|]. right. exact R.
Qed.
Lemma up_false h U T : object T -> (ptr_converts h U T = false <-> ~ up h U T).
Proof. intros HT. rewrite <- (up_eq h U T HT). destruct (ptr_converts h U T); split; congruence || (intros H; now elim H). Qed.
Lemma up_refl h T : up h T T.
Proof. destruct T as [q b]. unfold up, pointee. cbn. apply im_qual; [constructor; split; auto|reflexivity]. Qed.
(** between classes, the conversion implies that there is a base *)
Lemma up_base h U T : sane h -> up h U T -> object T -> is_class U -> is_base_of h T U = true.
Proof.
  intros Hs Hu HT [n Hn]. apply (up_eq h U T HT) in Hu. unfold ptr_converts in Hu. unfold is_base_of. rewrite Hn in *. apply andb_prop in Hu as [_ Hu].
  destruct (ob T) as [| | | | | | | | | | | | | | | | | | | |k|k|k]; cbn in Hu; try discriminate Hu. apply orb_prop in Hu as [Hu|Hu].
  - apply N.eqb_eq in Hu as ->. rewrite N.eqb_refl. reflexivity.
  - rewrite (Hs _ _ Hu). apply Bool.orb_true_r.
Qed.
Lemma base_class h T U : is_base_of h T U = true -> is_class U.
Proof. unfold is_base_of, is_class. destruct (ob T), (ob U); try discriminate. eauto. Qed.
Lemma differ T U : same_type T U = false <-> U <> T.
Proof. pose proof (same_type_eq T U) as H. destruct (same_type T U); split; try congruence. - intros E. elim E. symmetry. apply H. reflexivity. - intros _ E. symmetry in E. apply H in E. discriminate E. Qed.

(** one owner from another *)
Lemma owner h U T : sane h -> object T ->
  (same_type T U = true \/ same_type T U = false /\ is_base_of h T U = true /\ ptr_converts h U T = true) <->
  up h U T /\ (is_class U \/ U = T).
Proof.
  intros Hs HT. split.
  - intros [H|(H & B & P)].
    + apply same_type_eq in H as <-. split; [apply up_refl|auto].
    + split; [apply (up_eq h U T HT), P|]. left. eapply base_class, B.
  - intros [Hu H]. destruct (same_type T U) eqn:E; [left; reflexivity|]. right. apply differ in E as E'. destruct H as [C|C]; [|contradiction].
    split; [reflexivity|]. split; [eapply up_base; eassumption|apply (up_eq h U T HT), Hu].
Qed.

Ltac cases := unfold converts, implicitly; cbn [ctors unique_ctors shared_ctors weak_ctors]; unfold implicitly.

Lemma owner_verdict h d (U T : obj) (s : source) (t : target) : sane h -> object T -> related s t -> source_of s = Some U -> pointee_of t = T ->
  (converts h d s t = Compiles <-> up h U T /\ (is_class U \/ U = T)).
Proof.
  intros Hs HT R E1 E2. rewrite <- (owner h U T Hs HT).
  destruct R as [U0 T0|U0 T0 r|U0 T0 r]; cbn in E1, E2; injection E1 as ->; subst T0;
    cases; destruct d; destruct (same_type T U), (is_base_of h T U), (ptr_converts h U T); cbn; split; try tauto; try discriminate;
    intros [H|(H1 & H2 & H3)]; congruence.
Qed.
Lemma std_owner h d U T s t : related s t -> source_of s = Some U -> pointee_of t = T -> (std h d s t <-> up h U T).
Proof.
  intros R E1 E2. destruct R; cbn in E1, E2; injection E1 as ->; subst; (split; [intros H; inversion H; subst; assumption|intros H; constructor; exact H]).
Qed.
Lemma class_dec U : is_class U \/ ~ is_class U.
Proof. unfold is_class. destruct (ob U) as [| | | | | | | | | | | | | | | | | | | |k|k|k]; try (right; intros [n E]; discriminate E). left. exists k. reflexivity. Qed.

Theorem related_exact h d s t U : sane h -> object (pointee_of t) -> related s t -> source_of s = Some U -> is_class U ->
  (converts h d s t = Compiles <-> std h d s t).
Proof.
  intros Hs HT R E C. rewrite (owner_verdict h d U _ s t Hs HT R E eq_refl), (std_owner h d U _ s t R E eq_refl). tauto.
Qed.

Theorem conversions_exact h d s t : sane h -> object (pointee_of t) ->
  (converts h d s t = Compiles <-> (std h d s t /\ ~ lacking d s t) \/ beyond h d s t).
Proof.
  intros Hs HT.
  assert (Hrel : forall U, source_of s = Some U -> related s t -> (converts h d s t = Compiles <-> (std h d s t /\ ~ lacking d s t) \/ beyond h d s t)).
  { intros U E R. rewrite (owner_verdict h d U _ s t Hs HT R E eq_refl), (std_owner h d U _ s t R E eq_refl). split.
    - intros [Hu H]. left. split; [exact Hu|]. intros L. inversion L as [T|d0 U0 T r|d0 U0 T r|d0 U0 T r Hne|d0 s0 t0 U0 E0 R0 C0 N0]; subst; try (inversion R; fail).
      rewrite E in E0. injection E0 as <-. tauto.
    - intros [[Hu L]|B].
      + split; [exact Hu|]. destruct (class_dec U) as [C|C]; [auto|]. right. destruct (same_type (pointee_of t) U) eqn:S.
        * symmetry. apply same_type_eq, S.
        * apply differ in S. elim L. eapply lack_plain; eassumption.
      + exfalso. inversion B; subst; inversion R. }
  destruct s as [|U|U r|U r|U r], t as [T|T|T]; cbn in HT.
  - cases. destruct d; cbn; split; try discriminate.
    + intros _. left. split; [constructor|]. intros L. inversion L as [| | | |? ? ? ? E0 R0 C0 N0]; subst. discriminate E0.
    + reflexivity.
    + intros [[_ L]|B]; [elim L; apply lack_null|inversion B].
  - cases. destruct d; cbn; (split; [intros _; left; split; [constructor|intros L; inversion L as [| | | |? ? ? ? E0 R0 C0 N0]; subst; discriminate E0]|tauto]).
  - cases. destruct d; cbn.
    + split; [intros _; right; constructor|reflexivity].
    + split; [discriminate|]. intros [[S _]|B]; [inversion S|inversion B].
  - cases. pose proof (up_eq h U T HT) as P. destruct d, (ptr_converts h U T); cbn; (split; [|]); try discriminate.
    + intros _. left. split; [constructor; apply P; reflexivity|]. intros L. inversion L as [| | | |? ? ? ? E0 R0 C0 N0]; subst. inversion R0.
    + reflexivity.
    + intros [[S _]|B]; [inversion S as [|? ? Hu| | | | | | | |]; subst; apply P in Hu; discriminate Hu|inversion B].
    + intros [[S _]|B]; [inversion S|inversion B].
    + intros [[S _]|B]; [inversion S|inversion B].
  - assert (V : forall d, converts h d (SRaw U) (PShared T) = Compiles <-> up h U T).
    { intros d0. rewrite <- (up_eq h U T HT). cases. destruct (same_type T U) eqn:S.
      - apply same_type_eq in S as <-. assert (ptr_converts h T T = true) as -> by (apply (up_eq h T T HT), up_refl). destruct d0; cbn; tauto.
      - destruct d0, (is_base_of h T U), (ptr_converts h U T); cbn; split; try discriminate; tauto. }
    rewrite V. split.
    + intros Hu. destruct d; [left; split; [constructor; exact Hu|intros L; inversion L as [| | | |? ? ? ? E0 R0 C0 N0]; subst; inversion R0]|right; constructor; exact Hu].
    + intros [[S _]|B]; [inversion S; subst; assumption|inversion B; subst; assumption].
  - assert (V : converts h true (SRaw U) (PWeak T) = Compiles <-> up h U T).
    { rewrite <- (up_eq h U T HT). cases. destruct (same_type T U) eqn:S.
      - apply same_type_eq in S as <-. assert (ptr_converts h T T = true) as -> by (apply (up_eq h T T HT), up_refl). cbn; tauto.
      - destruct (is_base_of h T U), (ptr_converts h U T); cbn; split; try discriminate; tauto. }
    destruct d.
    + rewrite V. split; [intros Hu; right; constructor; exact Hu|]. intros [[S _]|B]; [inversion S|inversion B; subst; assumption].
    + cases. cbn. split; [discriminate|]. intros [[S _]|B]; [inversion S|inversion B].
  - destruct r; [apply (Hrel U); [reflexivity|constructor]|].
    split; [cases; destruct d, (same_type T U); cbn; discriminate|]. intros [[S _]|B]; [inversion S|inversion B].
  - split; [cases; destruct d; cbn; discriminate|]. intros [[S L]|B]; [elim L; constructor|inversion B].
  - split; [cases; destruct d; cbn; discriminate|]. intros [[S L]|B]; [inversion S|inversion B].
  - split; [cases; destruct d; cbn; discriminate|]. intros [[S L]|B]; [inversion S|inversion B].
  - apply (Hrel U); [reflexivity|constructor].
  - apply (Hrel U); [reflexivity|constructor].
  - split; [cases; destruct d; cbn; discriminate|]. intros [[S L]|B]; [inversion S|inversion B].
  - split; [cases; destruct d, (same_type T U); cbn; discriminate|]. intros [[S L]|B]; [elim L; constructor|inversion B].
  - assert (V : converts h d (SWeak U r) (PWeak T) = Compiles <-> U = T).
    { cases. destruct (same_type T U) eqn:S; [apply same_type_eq in S as <-; destruct d; cbn; tauto|]. apply differ in S. destruct d; cbn; split; try discriminate; tauto. }
    rewrite V. split.
    + intros ->. left. split; [constructor; apply up_refl|]. intros L. inversion L as [| | | |? ? ? ? E0 R0 C0 N0]; subst; [congruence|inversion R0].
    + intros [[S L]|B]; [|inversion B]. destruct (same_type T U) eqn:E; [symmetry; apply same_type_eq, E|]. apply differ in E. elim L. constructor. exact E.
Qed.

(** ** Errors where there should be no conversion *)
Lemma errors_raw h d s t : object (pointee_of t) ->
  (converts h d s t = HardError <-> exists U, source_of s = Some U /\ asks_base d s t /\ is_base_of h (pointee_of t) U = true /\ ~ up h U (pointee_of t)).
Proof.
  intros HT.
  assert (Hs : forall U T, object T -> ~ up h U T -> same_type T U = false).
  { intros U T _ Hn. destruct (same_type T U) eqn:S; [|reflexivity]. apply same_type_eq in S as <-. elim Hn. apply up_refl. }
  split.
  - intros H.
    assert (G : exists U, source_of s = Some U /\ asks_base d s t /\ is_base_of h (pointee_of t) U = true /\ ptr_converts h U (pointee_of t) = false).
    { revert H. cases. destruct s as [|U|U r|U r|U r], t as [T|T|T]; cases; try (destruct d; cbn; discriminate).
      - destruct d, (ptr_converts h U T); cbn; discriminate.
      - intros H. exists U. split; [reflexivity|]. split; [apply ab_raw|]. cbn [pointee_of]. revert H.
        destruct d, (same_type T U), (is_base_of h T U), (ptr_converts h U T); cbn; try discriminate; auto.
      - intros H. exists U. split; [reflexivity|]. cbn [pointee_of]. revert H.
        destruct d; [|cbn; discriminate]. destruct (same_type T U), (is_base_of h T U), (ptr_converts h U T); cbn; try discriminate. intros _. split; [apply ab_weak|auto].
      - intros H. exists U. split; [reflexivity|]. cbn [pointee_of]. revert H.
        destruct d, r, (same_type T U), (is_base_of h T U), (ptr_converts h U T); cbn; try discriminate; intros _; (split; [apply ab_rel; constructor|auto]).
      - intros H. exists U. split; [reflexivity|]. split; [apply ab_rel; constructor|]. cbn [pointee_of]. revert H.
        destruct d, (same_type T U), (is_base_of h T U), (ptr_converts h U T); cbn; try discriminate; auto.
      - intros H. exists U. split; [reflexivity|]. split; [apply ab_rel; constructor|]. cbn [pointee_of]. revert H.
        destruct d, (same_type T U), (is_base_of h T U), (ptr_converts h U T); cbn; try discriminate; auto.
      - destruct d, (same_type T U); cbn; discriminate.
      - destruct d, (same_type T U); cbn; discriminate. }
    destruct G as (U & G1 & G2 & G3 & G4). exists U. split; [exact G1|]. split; [exact G2|]. split; [exact G3|]. apply (up_false h U _ HT), G4.
  - intros (U & E & A & B & Hn). pose proof (Hs U _ HT Hn) as S. apply (up_false h U _ HT) in Hn.
    destruct A as [d s t R|d U0 T|U0 T].
    + destruct R as [U0 T|U0 T r|U0 T r]; cbn in E; injection E as ->; cbn [pointee_of] in *; cases; rewrite S, B, Hn; destruct d; reflexivity.
    + cbn in E; injection E as ->; cbn [pointee_of] in *; cases; rewrite S, B, Hn; destruct d; reflexivity.
    + cbn in E; injection E as ->; cbn [pointee_of] in *; cases; rewrite S, B, Hn; reflexivity.
Qed.

Lemma derives_eq h T U : is_base_of h T U = true <-> derives h U T.
Proof.
  unfold is_base_of, derives. split.
  - destruct (ob T); try (intros H; discriminate H). destruct (ob U); try (intros H; discriminate H).
    intros H. eexists _, _. split; [reflexivity|]. split; [reflexivity|]. apply Bool.orb_true_iff in H as [H|H]; [left; apply N.eqb_eq in H; auto|auto].
  - intros (b & a & -> & -> & [->|H]); [rewrite N.eqb_refl; reflexivity|rewrite H; apply Bool.orb_true_r].
Qed.
Theorem errors_exact h d s t : object (pointee_of t) ->
  (converts h d s t = HardError <-> exists U, source_of s = Some U /\ asks_base d s t /\ derives h U (pointee_of t) /\ ~ up h U (pointee_of t)).
Proof.
  intros HT. rewrite (errors_raw h d s t HT). split; intros (U & A & B & C & D); exists U; rewrite ?derives_eq in *; auto.
Qed.

(** ** Cases *)
(** class 1 has the public base 0 and the private base 2 *)
Definition zoo : hierarchy :=
  {| base := fun a b => (b =? 1) && ((a =? 0) || (a =? 2)); reach := fun a b => (b =? 1) && (a =? 0) |}.
Lemma zoo_sane : sane zoo.
Proof. intros a b. cbn. lia. Qed.
Definition cls (n : N) : obj := Obj none (Class n).
Definition const_ (x : obj) : obj := Obj (Q true (is_v (oq x))) (ob x).
Definition int_ : obj := Obj none Int.
Lemma up_const x : up zoo x (const_ x).
Proof. destruct x as [[c v] b]. apply im_qual; [constructor; split; auto|reflexivity]. Qed.
Lemma zoo_up : up zoo (cls 1) (const_ (cls 0)).
Proof. apply im_base; [reflexivity|split; intros H; discriminate H || exact H]. Qed.
Lemma upcast_demo : sane zoo /\ object (const_ (cls 0)) /\ is_class (cls 1) /\ std zoo false (SShared (cls 1) true) (PShared (const_ (cls 0))) /\
  converts zoo false (SShared (cls 1) true) (PShared (const_ (cls 0))) = Compiles /\
  converts zoo false (SShared (cls 0) true) (PShared (cls 1)) = NoConversion.
Proof. split; [exact zoo_sane|]. split; [discriminate|]. split; [exists 1; reflexivity|]. split; [constructor; exact zoo_up|]. split; reflexivity. Qed.
Lemma plain_wrong : exists h U T, sane h /\ object U /\ object T /\
  std h true (SUnique U true) (PUnique T) /\ converts h true (SUnique U true) (PUnique T) = NoConversion /\
  std h true (SShared U true) (PShared T) /\ converts h true (SShared U true) (PShared T) = NoConversion /\
  std h true (SShared U true) (PWeak T) /\ converts h true (SShared U true) (PWeak T) = NoConversion.
Proof.
  exists zoo, int_, (const_ int_). split; [exact zoo_sane|]. split; [discriminate|]. split; [discriminate|].
  repeat split; try reflexivity; constructor; apply up_const.
Qed.
Lemma missing_wrong : exists h U T, sane h /\ is_class U /\ is_class T /\
  std h false SNull (PUnique T) /\ converts h false SNull (PUnique T) = NoConversion /\
  std h true (SUnique U true) (PShared T) /\ converts h true (SUnique U true) (PShared T) = NoConversion /\
  std h true (SWeak U true) (PShared T) /\ converts h true (SWeak U true) (PShared T) = NoConversion /\
  std h true (SWeak U true) (PWeak T) /\ converts h true (SWeak U true) (PWeak T) = NoConversion.
Proof.
  exists zoo, (cls 1), (const_ (cls 0)). split; [exact zoo_sane|]. split; [exists 1; reflexivity|]. split; [exists 0; reflexivity|].
  repeat split; try reflexivity; try constructor; try exact zoo_up.
Qed.
Lemma silent_wrong : exists h T, sane h /\ is_class T /\
  ~ std h false (SRaw T) (PShared T) /\ converts h false (SRaw T) (PShared T) = Compiles /\
  ~ std h true (SRaw T) (PWeak T) /\ converts h true (SRaw T) (PWeak T) = Compiles.
Proof.
  exists zoo, (cls 0). split; [exact zoo_sane|]. split; [exists 0; reflexivity|].
  split; [intros H; inversion H|]. split; [reflexivity|]. split; [intros H; inversion H|]. reflexivity.
Qed.
Lemma error_wrong : exists h U T V, sane h /\ is_class U /\ is_class T /\ is_class V /\
  ~ std h true (SShared U true) (PShared T) /\ converts h true (SShared U true) (PShared T) = HardError /\
  ~ std h true (SShared T true) (PShared V) /\ converts h true (SShared T true) (PShared V) = HardError.
Proof.
  exists zoo, (const_ (cls 1)), (cls 1), (cls 2). split; [exact zoo_sane|]. split; [exists 1; reflexivity|]. split; [exists 1; reflexivity|]. split; [exists 2; reflexivity|].
  assert (A : ptr_converts zoo (const_ (cls 1)) (cls 1) = false) by reflexivity. apply up_false in A; [|discriminate].
  assert (B : ptr_converts zoo (cls 1) (cls 2) = false) by reflexivity. apply up_false in B; [|discriminate].
  split; [intros H; inversion H; subst; contradiction|]. split; [reflexivity|]. split; [intros H; inversion H; subst; contradiction|]. reflexivity.
Qed.
