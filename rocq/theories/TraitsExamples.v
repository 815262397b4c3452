(** Concrete cases for C75-C80, and the refutations. *)
From stdpp Require Import list.
From Coq Require Import NArith ZArith Lia.
From Verif Require Import TraitsModel TraitsSpec TraitsProofs AlgoModel AlgoSpec AlgoProofs.
Local Open Scope N_scope.

Definition int_ := TBase none Int.
(* const volatile int[3][2] *)
Definition cvarr := TArr (TArr (TBase (Q true true) Int) (Some 2)) (Some 3).
Lemma ex_quals : remove_const cvarr = TArr (TArr (TBase (Q false true) Int) (Some 2)) (Some 3) /\
  add_const (TLref int_) = TLref int_ /\ remove_cv (TPtr (Q true false) (TBase (Q true false) Char)) = TPtr none (TBase (Q true false) Char).
Proof. repeat split. Qed.
Lemma ex_refs : referenceable (TRref int_) /\ add_lvalue_reference (TRref int_) = Some (TLref int_) /\
  add_rvalue_reference (TLref int_) = Some (TLref int_).
Proof. repeat split. Qed.
Lemma ex_decay : decays (TLref (TArr (TBase (Q true false) Char) (Some 6))) (TPtr none (TBase (Q true false) Char)) /\
  decay (TLref (TArr (TBase (Q true false) Char) (Some 6))) = Some (TPtr none (TBase (Q true false) Char)).
Proof. split; [constructor|reflexivity]. Qed.
(* void f() noexcept *)
Definition quiet := TFun (TBase none Void) [] false none NoRef true.
Lemma decay_false : exists t u, decays t u /\ decay t <> Some u.
Proof. exists quiet, (TPtr none quiet). split; [constructor|]. discriminate. Qed.
Lemma void_false : exists t, add_lvalue_reference t = None /\ add_rvalue_reference t = None.
Proof. exists (TBase none Void). split; reflexivity. Qed.
Lemma ex_category : ~ forgotten (TMem none (TFun int_ [int_] false (Q true false) NoRef false) 7) /\
  category_of (TMem none (TFun int_ [int_] false (Q true false) NoRef false) 7) = CMemFun.
Proof. split; [intros []|reflexivity]. Qed.
Lemma category_false : exists t, (forall c, trait c t = false) /\ category_of t = CIntegral.
Proof. exists (TBase none ULong). split; [|reflexivity]. intros []; reflexivity. Qed.
Lemma memfun_false : exists t, category_of t = CMemFun /\ trait CMemObj t = true.
Proof. exists (TMem none quiet 0). split; reflexivity. Qed.
Lemma and_false : exists l, conjunction l = true /\ forallb id l = false.
Proof. exists [true; false]. split; reflexivity. Qed.
Lemma ex_and : conjunction [true; true; true] = true /\ conjunction [false; false] = false /\ disconjunction [false; true; false] = true.
Proof. repeat split. Qed.
Lemma ex_implicit : implicit (fun a b => a = 1 /\ b = 0) (TPtr none (TBase none (Class 1))) (TPtr none (TBase (Q true false) (Class 0))).
Proof. apply im_base; [auto|]. split; cbn; congruence. Qed.
Lemma convertible_false d : exists T A, is_convertible T A = Some true /\ ~ implicit d A T.
Proof. exists (TPtr none (TBase none Double)), (TPtr none (TBase none Int)). split; [reflexivity|]. apply not_implicit. Qed.
Lemma deleter_false T U : object_pointer (TPtr none T) = true -> object_pointer (TPtr none U) = true -> deleter_converts T U = Some true.
Proof. intros H1 H2. apply pointers_accepted; assumption. Qed.
Lemma ex_forward : proper (TBase (Q true false) (Class 3), PRValue) /\
  forward (deduce (TBase (Q true false) (Class 3), PRValue)) (TBase (Q true false) (Class 3), LValue) = Some (TBase (Q true false) (Class 3), XValue).
Proof. repeat split. Qed.
Definition m123 : mem := fun a => Z.of_N (a + 1).
Lemma ex_fill : option_map (fun m => [m 0; m 1; m 2; m 3; m 4]) (fill 10 m123 1 4 2) = Some [1; 3; 3; 3; 5]%Z.
Proof. reflexivity. Qed.
Lemma ex_tuple : let m := assign_tuple 2 m123 10 0 4 in [m 0; m 1; m 2; m 4; m 5] = [5; 6; 3; 5; 6]%Z.
Proof. reflexivity. Qed.
(** pairs ordered by their first component *)
Lemma minmax_false : exists (x y : N * N),
  let lt a b := fst a <? fst b in let gt a b := fst b <? fst a in
  pick (min_ref lt x y) x y = y /\ pick (max_ref gt x y) x y = y /\ x <> y.
Proof. exists (1, 1), (1, 2). repeat split. discriminate. Qed.
Lemma back_ok n : 0 < n < 2 ^ 64 -> back_index n = n - 1.
Proof. intros H. unfold back_index. replace (n + 2 ^ 64 - 1) with (n - 1 + 1 * 2 ^ 64) by lia. rewrite N.mod_add by lia. apply N.mod_small. lia. Qed.

Lemma ex_castable : castable (TPtr none (TBase none Int)) (TBase none ULong) /\ ~ castable (TPtr none (TBase none Int)) (TBase none UInt) /\
  number_or_pointer (TPtr none (TBase none Int)) /\ number_or_pointer (TBase none UInt).
Proof.
  split; [|split; [|split; [right; reflexivity|left; reflexivity]]].
  - eapply ca_from_pointer; [reflexivity|reflexivity|vm_compute; discriminate].
  - intros H. inversion H; subst; try discriminate. match goal with K : integer_bytes UInt = Some _ |- _ => injection K as <- end.
    match goal with K : (8 <= 4)%N |- _ => vm_compute in K; apply K; reflexivity end.
Qed.
