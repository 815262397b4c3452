(** C96: comparisons. *)
From Coq Require Import ZArith NArith List Bool.
From Verif Require Import Base CompareModel CompareSpec CompareProofs.
Import ListNotations.

(** Which comparisons compile, for every type, operator and kind of operand. *)
Theorem C96_compiles : forall t o x y, compiles t o x y = fits (taken t o) x y.
Proof. exact compiles_exact. Qed.
Print Assumptions C96_compiles.
(** (Part.) Numbers, pointers, unique_ptr, atomic, string_view, the iterators of vectors and sets, reversed
    iterators over those, and pairs: as in the standard library. Missing: the types of the refutation below. *)
Theorem C96_standard_partial : forall t o x y, complete t = true -> compiles t o x y = standard t o.
Proof. exact complete_compiles. Qed.
Print Assumptions C96_standard_partial.
Example C96_standard_example : complete (TPair TUniq (TRev TVecIt)) = true /\ standard (TPair TUniq (TRev TVecIt)) Lt = true /\
  complete (TRev TTreeIt) = true /\ standard (TRev TTreeIt) Lt = false.
Proof. repeat split. Qed.
(** Nothing compiles that the standard library refuses, except where an any or a function takes part. *)
Theorem C96_no_more : forall t o x y, compiles t o x y = true -> standard t o = true \/ boxed t = true.
Proof. exact compiles_boxed. Qed.
Print Assumptions C96_no_more.
(** Two shared_ptr compare only as variables; vectors have neither != nor <, so a vector of vectors has no ==; a constant list
    has no ==; iterators of a deque have no order. *)
Theorem C96_standard_refuted :
  (standard TShared Eq = true /\ compiles TShared Eq constant constant = false /\ compiles TShared Eq temporary variable = false /\ compiles TShared Eq variable variable = true) /\
  (forall t, compiles (TVec t) Ne variable variable = false /\ compiles (TVec t) Lt variable variable = false) /\ standard (TVec TInt) Ne = true /\
  (standard (TVec (TVec TInt)) Eq = true /\ forall t x y, compiles (TVec (TVec t)) Eq x y = false) /\
  (standard (TList TInt) Eq = true /\ compiles (TList TInt) Eq constant variable = false) /\
  (standard TDeqIt Lt = true /\ forall x y, compiles TDeqIt Lt x y = false).
Proof. exact standard_refuted. Qed.
Print Assumptions C96_standard_refuted.
(** What can be put in a set. *)
Theorem C96_key : forall t, can_be_key t = key t.
Proof. exact key_exact. Qed.
Print Assumptions C96_key.
(** Not a shared_ptr, a vector, or a pair, even if the pair is ordered. *)
Theorem C96_key_refuted : standard TShared Lt = true /\ can_be_key TShared = false /\ can_be_key TUniq = true /\
  standard (TVec TInt) Lt = true /\ can_be_key (TVec TInt) = false /\
  standard (TPair TInt TView) Lt = true /\ compiles (TPair TInt TView) Lt constant constant = true /\ can_be_key (TPair TInt TView) = false.
Proof. exact key_refuted. Qed.
Print Assumptions C96_key_refuted.

(** What compiles answers: == whether the values are equal, != the opposite, where no any or function takes part ... *)
Theorem C96_equal_partial : forall t x y v w, boxed t = false -> has_type t v -> has_type t w ->
  (compiles t Eq x y = true -> exists b, answer t Eq v w = Ok b /\ (b = true <-> v = w)) /\
  (compiles t Ne x y = true -> exists b, answer t Ne v w = Ok b /\ (b = true <-> v <> w)).
Proof. exact equal_unboxed. Qed.
Print Assumptions C96_equal_partial.
(** ... and in general whether they are equal up to the contents of any and function. *)
Theorem C96_equal_exact : forall t x y v w, has_type t v -> has_type t w ->
  (compiles t Eq x y = true -> exists b, answer t Eq v w = Ok b /\ (b = true <-> alike t v w)) /\
  (compiles t Ne x y = true -> exists b, answer t Ne v w = Ok b /\ (b = true <-> ~ alike t v w)).
Proof. exact equal_exact. Qed.
Print Assumptions C96_equal_exact.
Example C96_equal_example : let t := TList (TPair TInt (TVec TView)) in
  let v := VSeq [VPair (VInt 1) (VSeq [VChars [97]; VChars []])]%Z in let w := VSeq [VPair (VInt 1) (VSeq [VChars [97]; VChars [98]])]%Z in
  boxed t = false /\ has_type t v /\ has_type t w /\ compiles t Eq variable constant = true /\ answer t Eq v w = Ok false /\ answer t Eq v v = Ok true.
Proof. cbv zeta. split; [reflexivity|]. split; [repeat constructor|]. split; [repeat constructor|]. repeat split. Qed.
(** Two vectors of different contents compare equal. *)
Theorem C96_equal_refuted : exists t v w, has_type t v /\ has_type t w /\ v <> w /\ compiles t Eq constant constant = true /\
  standard t Eq = false /\ answer t Eq v w = Ok true.
Proof. exact any_refuted. Qed.
Print Assumptions C96_equal_refuted.
(** The order operators answer, and agree with < and ==. *)
Theorem C96_order : forall t v w, has_type t v -> has_type t w ->
  (forall x y, compiles t Lt x y = true -> exists b, answer t Lt v w = Ok b) /\
  (forall x y, compiles t Gt x y = true -> answer t Gt v w = answer t Lt w v) /\
  (forall x y, compiles t Ge x y = true -> exists b, answer t Lt v w = Ok b /\ answer t Ge v w = Ok (negb b)) /\
  (forall x y, compiles t Le x y = true -> exists b c, answer t Lt v w = Ok b /\ answer t Eq v w = Ok c /\ answer t Le v w = Ok (b || c)).
Proof. exact order_exact. Qed.
Print Assumptions C96_order.
Example C96_order_example : let t := TPair TInt TView in let v := VPair (VInt 1) (VChars [98])%Z in let w := VPair (VInt 1) (VChars [97; 97])%Z in
  has_type t v /\ has_type t w /\ compiles t Le constant temporary = true /\ answer t Lt v w = Ok true /\ answer t Ge v w = Ok false.
Proof. repeat split. Qed.
(** With nullptr: pointers, unique_ptr and shared_ptr, for == and != only. *)
Theorem C96_null : forall t o v, has_type t v ->
  (compiles_null t o = true <-> (t = TPtr \/ t = TUniq \/ t = TShared) /\ (o = Eq \/ o = Ne)) /\
  (compiles_null t o = true -> exists b, answer_null o v = Ok b /\ (b = true <-> (o = Eq <-> v = VAdr 0%N))).
Proof. exact null_exact. Qed.
Print Assumptions C96_null.
Example C96_null_example : has_type TShared (VAdr 0%N) /\ compiles_null TShared Eq = true /\ answer_null Eq (VAdr 0%N) = Ok true /\ compiles_null TFun Eq = false.
Proof. repeat split. Qed.
(** Beyond 2^31 elements, comparing a vector or a list with an equal one overflows its index. *)
Theorem C96_overflow_refuted : forall t l x y, compiles (TVec t) Eq x y = true -> Forall (has_type t) l -> (2 ^ 31 <= Z.of_nat (length l))%Z ->
  answer (TVec t) Eq (VSeq l) (VSeq l) = UB /\ answer (TList t) Eq (VSeq l) (VSeq l) = UB.
Proof. exact overflow. Qed.
Print Assumptions C96_overflow_refuted.
Example C96_overflow_example : exists l, Forall (has_type TInt) l /\ (2 ^ 31 <= Z.of_nat (length l))%Z /\ compiles (TVec TInt) Eq constant constant = true.
Proof. exact overflow_demo. Qed.
