(** C106: which smart pointers convert to which. *)
From stdpp Require Import list.
From Coq Require Import NArith.
From Verif Require Import TraitsModel UpcastModel UpcastSpec UpcastProofs UpcastArrayModel UpcastArraySpec UpcastArrayProofs UpcastAssignModel UpcastAssignProofs.
Local Open Scope N_scope.

(** Between owners of classes the conversions are those of the standard library. *)
Theorem C106_related_partial : forall h d s t U, sane h -> object (pointee_of t) -> related s t -> source_of s = Some U -> is_class U ->
  (converts h d s t = Compiles <-> std h d s t).
Proof. exact related_exact. Qed.
Print Assumptions C106_related_partial.
(** In full: what compiles is what the standard library has, but for [lacking], and [beyond]. *)
Theorem C106_exact : forall h d s t, sane h -> object (pointee_of t) ->
  (converts h d s t = Compiles <-> (std h d s t /\ ~ lacking d s t) \/ beyond h d s t).
Proof. exact conversions_exact. Qed.
Print Assumptions C106_exact.
(** Where a constructor is chosen whose body does not compile. *)
Theorem C106_errors : forall h d s t, object (pointee_of t) ->
  (converts h d s t = HardError <-> exists U, source_of s = Some U /\ asks_base d s t /\ derives h U (pointee_of t) /\ ~ up h U (pointee_of t)).
Proof. exact errors_exact. Qed.
Print Assumptions C106_errors.
Example C106_example : sane zoo /\ object (const_ (cls 0)) /\ is_class (cls 1) /\ std zoo false (SShared (cls 1) true) (PShared (const_ (cls 0))) /\
  converts zoo false (SShared (cls 1) true) (PShared (const_ (cls 0))) = Compiles /\
  converts zoo false (SShared (cls 0) true) (PShared (cls 1)) = NoConversion.
Proof. exact upcast_demo. Qed.

(** A pointer to int does not become a pointer to const int. *)
Theorem C106_plain_refuted : exists h U T, sane h /\ object U /\ object T /\
  std h true (SUnique U true) (PUnique T) /\ converts h true (SUnique U true) (PUnique T) = NoConversion /\
  std h true (SShared U true) (PShared T) /\ converts h true (SShared U true) (PShared T) = NoConversion /\
  std h true (SShared U true) (PWeak T) /\ converts h true (SShared U true) (PWeak T) = NoConversion.
Proof. exact plain_wrong. Qed.
Print Assumptions C106_plain_refuted.
(** Conversions that are missing also for classes. *)
Theorem C106_missing_refuted : exists h U T, sane h /\ is_class U /\ is_class T /\
  std h false SNull (PUnique T) /\ converts h false SNull (PUnique T) = NoConversion /\
  std h true (SUnique U true) (PShared T) /\ converts h true (SUnique U true) (PShared T) = NoConversion /\
  std h true (SWeak U true) (PShared T) /\ converts h true (SWeak U true) (PShared T) = NoConversion /\
  std h true (SWeak U true) (PWeak T) /\ converts h true (SWeak U true) (PWeak T) = NoConversion.
Proof. exact missing_wrong. Qed.
Print Assumptions C106_missing_refuted.
(** A raw pointer is taken over without being asked, even by a weak_ptr, whose object is then deleted at once. *)
Theorem C106_silent_refuted : exists h T, sane h /\ is_class T /\
  ~ std h false (SRaw T) (PShared T) /\ converts h false (SRaw T) (PShared T) = Compiles /\
  ~ std h true (SRaw T) (PWeak T) /\ converts h true (SRaw T) (PWeak T) = Compiles.
Proof. exact silent_wrong. Qed.
Print Assumptions C106_silent_refuted.
(** Losing a const, or going to a private base, is an error in the body rather than no conversion. *)
Theorem C106_errors_refuted : exists h U T V, sane h /\ is_class U /\ is_class T /\ is_class V /\
  ~ std h true (SShared U true) (PShared T) /\ converts h true (SShared U true) (PShared T) = HardError /\
  ~ std h true (SShared T true) (PShared V) /\ converts h true (SShared T true) (PShared V) = HardError.
Proof. exact error_wrong. Qed.
Print Assumptions C106_errors_refuted.

(** Owners of arrays: which arguments are accepted and deleted as what they are; with which the deletion is undefined. *)
Theorem C106_array : forall h d s T, array_life h d s T = Fine <-> std_array d s T /\ ~ lacking_array d s T.
Proof. exact array_exact. Qed.
Print Assumptions C106_array.
Theorem C106_array_undefined : forall h d s T, object T ->
  (array_life h d s T = Undefined <-> d = true /\ exists U, s = ANew U /\ up h U T /\ ob U <> ob T).
Proof. exact array_undefined. Qed.
Print Assumptions C106_array_undefined.
Theorem C106_array_made : forall h T, make_array h T = Fine.
Proof. exact array_made. Qed.
Print Assumptions C106_array_made.
Example C106_array_example : std_array true (ANew (cls 1)) (const_ (cls 1)) /\ ~ lacking_array true (ANew (cls 1)) (const_ (cls 1)) /\
  array_life zoo true (ANew (cls 1)) (const_ (cls 1)) = Fine /\ object (cls 0) /\ up zoo (cls 1) (cls 0) /\ ob (cls 1) <> ob (cls 0).
Proof. exact array_demo. Qed.
(** An array of derived objects is accepted and then deleted as an array of the base. *)
Theorem C106_array_refuted : exists h U T, sane h /\ is_class U /\ is_class T /\
  ~ std_array true (ANew U) T /\ array_life h true (ANew U) T = Undefined.
Proof. exact array_wrong. Qed.
Print Assumptions C106_array_refuted.
Theorem C106_array_missing_refuted : exists h U T, object T /\
  std_array true (AUnique U true) T /\ array_life h true (AUnique U true) T = Rejected /\
  std_array false ANull T /\ array_life h false ANull T = Rejected.
Proof. exact array_missing. Qed.
Print Assumptions C106_array_missing_refuted.

(** Assignments: as conversions without direct initialisation, except that nullptr can be assigned to a unique_ptr. *)
Theorem C106_assign : forall h s t, sane h -> object (pointee_of t) ->
  (assigns h s t = Compiles <-> (std h false s t /\ (lacking false s t -> s = SNull)) \/ exists U T, s = SRaw U /\ t = PShared T /\ up h U T).
Proof. exact assigns_exact. Qed.
Print Assumptions C106_assign.
Theorem C106_assign_errors : forall h s t, object (pointee_of t) ->
  (assigns h s t = HardError <-> exists U, source_of s = Some U /\ asks_base false s t /\ derives h U (pointee_of t) /\ ~ up h U (pointee_of t)).
Proof. exact assigns_errors. Qed.
Print Assumptions C106_assign_errors.
Example C106_assign_example : assigns zoo (SShared (cls 1) true) (PShared (const_ (cls 0))) = Compiles /\
  std zoo false (SShared (cls 1) true) (PShared (const_ (cls 0))) /\
  assigns zoo SNull (PUnique (cls 0)) = Compiles /\ lacking false SNull (PUnique (cls 0)) /\
  assigns zoo (SShared (const_ (cls 1)) true) (PShared (cls 1)) = HardError.
Proof. exact assign_demo. Qed.
Theorem C106_assign_refuted : exists h T, sane h /\ is_class T /\ ~ std h false (SRaw T) (PShared T) /\ assigns h (SRaw T) (PShared T) = Compiles.
Proof. exact assign_wrong. Qed.
Print Assumptions C106_assign_refuted.
