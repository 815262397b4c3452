(** C91: which calls of invoke, apply and make_tuple compile, and from what a function can be made. *)
From stdpp Require Import list.
From Coq Require Import NArith.
From Verif Require Import TraitsModel InvokeModel InvokeSpec InvokeProofs.
Local Open Scope N_scope.

(** invoke accepts a call of the standard exactly when it is not one of the six troublesome ones ... *)
Theorem C91_invoke : forall env f args, sensible env -> expression f -> standard env f args ->
  (invoke env f args = true <-> ~ trouble env f args).
Proof. exact invoke_standard. Qed.
Print Assumptions C91_invoke.
(** ... and nothing else but the two extensions. *)
Theorem C91_invoke_only : forall env f args, sensible env -> expression f -> invoke env f args = true ->
  standard env f args \/ extension env f args.
Proof. exact invoke_only. Qed.
Print Assumptions C91_invoke_only.

(** Class 0 has a const call operator, class 1 one that is not const, class 2 none. *)
Definition demo : classes := Classes (fun n => n <? 2) (fun n => n =? 0).
Definition an_int : ty := TBase none Int.
Definition int_to_int : ty := TFun an_int [an_int] false none NoRef false.
Definition object (n : N) : ty := TBase none (Class n).
Definition sub : ty := TMem none int_to_int 2.
Lemma demo_sensible : sensible demo.
Proof. intros n H. apply N.eqb_eq in H as ->. reflexivity. Qed.
Example C91_invoke_example : sensible demo /\ expression (sub, PRValue) /\
  standard demo (sub, PRValue) [(object 2, LValue); (an_int, PRValue)] /\
  invoke demo (sub, PRValue) [(object 2, LValue); (an_int, PRValue)] = true /\
  standard demo (object 0, PRValue) [(an_int, PRValue)] /\ invoke demo (object 0, PRValue) [(an_int, PRValue)] = true /\
  invoke demo (TPtr none (object 1), PRValue) [(an_int, PRValue)] = true.
Proof.
  split; [exact demo_sensible|]. split; [repeat split; discriminate|].
  split; [eapply inv_member_function; [apply by_object|split; discriminate|exact I]|]. split; [reflexivity|].
  split; [apply inv_call; constructor; split; reflexivity|]. split; reflexivity.
Qed.

(** A name is enough to break it: the same pointer to member, the same call. *)
Theorem C91_invoke_refuted : exists env f args, sensible env /\ expression f /\ standard env f args /\ invoke env f args = false /\
  invoke env (fst f, PRValue) args = true.
Proof.
  exists demo, (sub, LValue), [(object 2, LValue); (an_int, PRValue)]. split; [exact demo_sensible|]. split; [repeat split; discriminate|].
  split; [eapply inv_member_function; [apply by_object|split; discriminate|exact I]|]. split; reflexivity.
Qed.
Print Assumptions C91_invoke_refuted.
(** A function that takes a pointer to a data member cannot be called through invoke with that pointer written out. *)
Theorem C91_argument_refuted : exists env f a, sensible env /\ expression f /\ standard env f [a] /\ invoke env f [a] = false /\
  invoke env f [(fst a, LValue)] = true.
Proof.
  exists demo, (TPtr none (TFun an_int [TMem none an_int 2] false none NoRef false), PRValue), (TMem none an_int 2, PRValue).
  split; [exact demo_sensible|]. split; [repeat split; discriminate|]. split; [apply inv_call; constructor|]. split; reflexivity.
Qed.
Print Assumptions C91_argument_refuted.

(** A class with the constructors X(const T&) and X(T&&) can be instantiated for every T but lvalue references (and what has none). *)
Theorem C91_holder : forall T, declares T = true <->
  (forall u, T <> TLref u) /\ (forall q, T <> TBase q Void) /\ (forall r l d q f e, T = TFun r l d q f e -> q = none /\ f = NoRef).
Proof. exact declares_exact. Qed.
Print Assumptions C91_holder.
Example C91_holder_example : declares (object 0) = true /\ declares (TRref (object 0)) = true /\ declares (TLref (object 0)) = false.
Proof. repeat split. Qed.

(** A function is made from what is nameless and can be called, directly or through a pointer, and from nothing else. *)
Theorem C91_function : forall env f Args, expression f ->
  (function_from env f Args = true <-> snd f <> LValue /\ (callable env (fst f) \/ through env (fst f))).
Proof. exact function_from_spec. Qed.
Print Assumptions C91_function.
Example C91_function_example : expression (object 1, PRValue) /\ function_from demo (object 1, PRValue) [an_int; an_int] = true /\
  expression (TPtr none int_to_int, PRValue) /\ function_from demo (TPtr none int_to_int, PRValue) [an_int] = true /\
  expression (sub, PRValue) /\ function_from demo (sub, PRValue) [object 2; an_int] = false.
Proof. repeat split; try discriminate. Qed.
(** So none that has a name, and no pointer to member, although the standard lets both be invoked. *)
Theorem C91_function_refuted : exists env f Args, expression f /\ standard env f [(an_int, LValue)] /\ snd f = LValue /\
  function_from env f Args = false.
Proof.
  exists demo, (object 0, LValue), [an_int]. split; [repeat split; try discriminate; intros; congruence|].
  split; [apply inv_call; constructor; split; reflexivity|]. split; reflexivity.
Qed.
Print Assumptions C91_function_refuted.
(** Once made, it can be called with whatever arguments: the call reaches the virtual operator(). *)
Theorem C91_function_call : forall env n Args, function_call env n Args = any_op env n.
Proof. exact function_call_spec. Qed.
Print Assumptions C91_function_call.
Example C91_function_call_example : function_call demo 1 [TMem none an_int 2; TLref (object 0)] = true.
Proof. reflexivity. Qed.

(** make_tuple takes values without a name only. *)
Theorem C91_make_tuple : forall empty args, Forall expression args ->
  (make_tuple empty args = true <-> Forall (fun e => snd e <> LValue) args).
Proof. exact make_tuple_spec. Qed.
Print Assumptions C91_make_tuple.
Example C91_make_tuple_example : Forall expression [(an_int, PRValue); (object 0, XValue)] /\
  make_tuple (fun _ => false) [(an_int, PRValue); (object 0, XValue)] = true /\
  make_tuple (fun _ => false) [(an_int, PRValue); (object 0, LValue)] = false.
Proof.
  split; [|split; reflexivity]. apply Forall_cons_2; [|apply Forall_cons_2; [|constructor]]; repeat split; discriminate.
Qed.
(** apply calls functions and function objects, mutable ones too, and no pointer to member. *)
Theorem C91_apply : forall env f b Ts, expression f -> (apply env f b Ts = true <-> callable env (fst f) \/ through env (fst f)).
Proof. exact apply_spec. Qed.
Print Assumptions C91_apply.
Example C91_apply_example : expression (int_to_int, LValue) /\ apply demo (int_to_int, LValue) false [an_int] = true /\
  apply demo (object 1, PRValue) true [an_int] = true /\ apply demo (sub, PRValue) false [object 2; an_int] = false.
Proof.
  split; [split_and!; try discriminate; try reflexivity; intros W; exfalso; apply W; reflexivity|]. split_and!; reflexivity.
Qed.
