(** Proofs about assignments of smart pointers. *)
From stdpp Require Import list.
From Coq Require Import NArith.
From Verif Require Import TraitsModel TraitsSpec UpcastModel UpcastSpec UpcastProofs UpcastAssignModel.
Local Open Scope N_scope.

Lemma assigns_eq h s t : (forall T, s = SNull -> t <> PUnique T) -> assigns h s t = converts h false s t.
Proof.
  intros N. destruct t as [T|T|T]; cbn [assigns]; unfold weak_assign; try reflexivity.
  - destruct s; try reflexivity. elim (N T); reflexivity.
  - unfold shared_assign. destruct s as [|U|U r|U r|U r]; try reflexivity. unfold by_parameter, converts. cbn [ctors shared_ctors].
    destruct (same_type T U); [reflexivity|]. destruct (is_base_of h T U); [|reflexivity]. destruct (ptr_converts h U T); reflexivity.
Qed.
Lemma null_dec s t : (exists T, s = SNull /\ t = PUnique T) \/ (forall T, s = SNull -> t <> PUnique T).
Proof. destruct s, t; try (right; intros ? E F; discriminate E || discriminate F). left. eauto. Qed.
Theorem assigns_exact h s t : sane h -> object (pointee_of t) ->
  (assigns h s t = Compiles <-> (std h false s t /\ (lacking false s t -> s = SNull)) \/ exists U T, s = SRaw U /\ t = PShared T /\ up h U T).
Proof.
  intros Hs HT. destruct (null_dec s t) as [(T & -> & ->)|N].
  - split; [|intros _; reflexivity]. intros _. left. split; [constructor|auto].
  - rewrite (assigns_eq h s t N), (conversions_exact h false s t Hs HT). split.
    + intros [[A B]|B]; [left; split; [exact A|intros C; contradiction]|]. inversion B; subst. right. eauto.
    + intros [[A B]|(U & T & -> & -> & H)]; [|right; constructor; exact H]. left. split; [exact A|]. intros L.
      specialize (B L). subst s. inversion L as [T| | | |? ? ? ? E]; subst; [elim (N T); reflexivity|discriminate E].
Qed.
Theorem assigns_errors h s t : object (pointee_of t) ->
  (assigns h s t = HardError <-> exists U, source_of s = Some U /\ asks_base false s t /\ derives h U (pointee_of t) /\ ~ up h U (pointee_of t)).
Proof.
  intros HT. destruct (null_dec s t) as [(T & -> & ->)|N].
  - split; [intros H; discriminate H|]. intros (U & E & _). discriminate E.
  - rewrite (assigns_eq h s t N). apply errors_exact, HT.
Qed.
Lemma assign_demo : assigns zoo (SShared (cls 1) true) (PShared (const_ (cls 0))) = Compiles /\
  std zoo false (SShared (cls 1) true) (PShared (const_ (cls 0))) /\
  assigns zoo SNull (PUnique (cls 0)) = Compiles /\ lacking false SNull (PUnique (cls 0)) /\
  assigns zoo (SShared (const_ (cls 1)) true) (PShared (cls 1)) = HardError.
Proof. split; [reflexivity|]. split; [constructor; exact zoo_up|]. split; [reflexivity|]. split; [constructor|reflexivity]. Qed.
Lemma assign_wrong : exists h T, sane h /\ is_class T /\ ~ std h false (SRaw T) (PShared T) /\ assigns h (SRaw T) (PShared T) = Compiles.
Proof.
  exists zoo, (cls 0). split; [exact zoo_sane|]. split; [exists 0; reflexivity|]. split; [intros H; inversion H|reflexivity].
Qed.
