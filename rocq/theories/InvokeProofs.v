From stdpp Require Import list.
From Coq Require Import NArith Lia.
From Verif Require Import TraitsModel InvokeModel InvokeSpec.
Local Open Scope N_scope.

Lemma map_q_ref f t : (exists u, t = TLref u \/ t = TRref u) -> map_q f t = t.
Proof. intros (u & [->| ->]); reflexivity. Qed.

(** every pattern without noexcept is there *)
Lemma is_function_fun r l d q f e : is_function (TFun r l d q f e) = negb e.
Proof. destruct d, q as [[] []], f, e; reflexivity. Qed.
Lemma is_function_not t : (forall r l d q f e, t <> TFun r l d q f e) -> is_function t = false.
Proof. destruct t; intros H; try reflexivity. exfalso. eapply H. reflexivity. Qed.
Lemma remove_cv_map t : remove_cv t = map_q no_c (map_q no_v t).
Proof.
  unfold remove_cv, remove_const, remove_volatile, as_const, as_volatile.
  assert (A : forall t, is_v (quals_of t) = false -> map_q no_v t = t).
  { intros s. induction s as [[c v] ?|[c v] ?|[c v] ?| | |s IHs n|]; cbn; intros H; subst; try reflexivity. rewrite IHs by exact H. reflexivity. }
  assert (B : forall t, is_c (quals_of t) = false -> map_q no_c t = t).
  { intros s. induction s as [[c v] ?|[c v] ?|[c v] ?| | |s IHs n|]; cbn; intros H; subst; try reflexivity. rewrite IHs by exact H. reflexivity. }
  destruct (is_v (quals_of t)) eqn:V.
  - destruct (is_c (quals_of (map_q no_v t))) eqn:C; [reflexivity|]. symmetry. apply B. exact C.
  - rewrite (A t V). destruct (is_c (quals_of t)) eqn:C; [reflexivity|]. symmetry. apply B. exact C.
Qed.
Lemma member_function_mem q t c : is_member_function_pointer (TMem q t c) = is_function t.
Proof. unfold is_member_function_pointer. rewrite remove_cv_map. destruct q as [[] []]; reflexivity. Qed.
Lemma member_object_mem q t c : is_member_object_pointer (TMem q t c) = negb (is_function t).
Proof. unfold is_member_object_pointer. rewrite remove_cv_map. destruct q as [[] []]; reflexivity. Qed.
Lemma member_function_other t : (forall q u c, t <> TMem q u c) -> is_member_function_pointer t = false.
Proof.
  unfold is_member_function_pointer. rewrite remove_cv_map. destruct t; intros H; try reflexivity. exfalso. eapply H. reflexivity.
Qed.
Lemma member_object_other t : (forall q u c, t <> TMem q u c) -> is_member_object_pointer t = false.
Proof.
  unfold is_member_object_pointer. rewrite remove_cv_map. destruct t; intros H; try reflexivity. exfalso. eapply H. reflexivity.
Qed.

Lemma class_call_spec env q n : class_call env q n = true <-> callable_object env q n.
Proof.
  unfold class_call, callable_object. destruct q as [[] []]; cbn; split;
    first [intros []; congruence | intros; split; congruence | tauto].
Qed.
Lemma call_ok_spec env t : call_ok env t = true <-> callable env t.
Proof.
  split.
  - destruct t as [q b|q t|q t c|t|t|t n|r l d q f e]; cbn; try discriminate.
    + destruct b; try discriminate. intros H. constructor. apply class_call_spec. exact H.
    + destruct t; try discriminate. intros _. constructor.
    + intros _. constructor.
  - intros []; cbn; try reflexivity. apply class_call_spec. assumption.
Qed.
Lemma const_weaken env t : sensible env -> callable env (add_const t) -> callable env t.
Proof.
  intros S. unfold add_const. destruct t as [q b|q t|q t c|t|t|t n|r l d q f e]; cbn; intros H; inversion H; subst.
  - constructor. destruct H1 as [V C]. cbn in *. split; [exact V|]. destruct (is_c q); [exact C|]. apply S. exact C.
  - constructor.
  - constructor.
Qed.
Lemma deref_ok_spec env t : (forall r l d q f e, t <> TFun r l d q f e) -> deref_call_ok env t = true <-> through env t.
Proof.
  intros F. split.
  - destruct t as [q b|q t|q t c|t|t|t n|r l d q f e]; cbn; try discriminate; intros H;
      [constructor; apply call_ok_spec; exact H..|exfalso; eapply F; reflexivity].
  - intros []; cbn; apply call_ok_spec; assumption.
Qed.
Lemma const_weaken_through env t : sensible env -> through env (add_const t) -> through env t.
Proof.
  intros S. unfold add_const. destruct t as [q b|q t|q t c|t|t|t n|r l d q f e]; cbn; intros H; inversion H; subst.
  - constructor. assumption.
  - constructor. apply const_weaken; assumption.
Qed.

Definition no_ref (t : ty) : Prop := (forall u, t <> TLref u) /\ (forall u, t <> TRref u).
Lemma lref_plain t : no_ref t -> is_void_ty t = false -> abominable t = false -> lref t = Some (TLref t).
Proof. intros [A B] V N. destruct t; unfold lref; rewrite ?V, ?N; try reflexivity; exfalso; [eapply A|eapply B]; reflexivity. Qed.
Lemma rref_plain t : no_ref t -> is_void_ty t = false -> abominable t = false -> rref t = Some (TRref t).
Proof. intros [A B] V N. destruct t; unfold rref; rewrite ?V, ?N; try reflexivity; exfalso; [eapply A|eapply B]; reflexivity. Qed.
Lemma const_plain t : no_ref t -> no_ref (add_const t).
Proof. intros [A B]. unfold add_const. destruct t; cbn; split; intros; try discriminate; [eapply A|eapply B]; reflexivity. Qed.
Lemma const_void t : is_void_ty (add_const t) = is_void_ty t.
Proof. unfold add_const. destruct t; reflexivity. Qed.
Lemma const_abom t : abominable (add_const t) = abominable t.
Proof. unfold add_const. destruct t; reflexivity. Qed.
Lemma no_ref_reference t : no_ref t -> remove_reference t = t.
Proof. intros [A B]. destruct t; try reflexivity; exfalso; [eapply A|eapply B]; reflexivity. Qed.
Lemma const_param_lref u : const_param (TLref u) = Some u.
Proof. reflexivity. Qed.
Lemma const_param_plain t : no_ref t -> is_void_ty t = false -> abominable t = false -> const_param t = Some (add_const t).
Proof.
  intros R V N. unfold const_param. rewrite lref_plain; [reflexivity|apply const_plain; exact R|rewrite const_void; exact V|
    rewrite const_abom; exact N].
Qed.

(** ** The specialisation of invoke_function *)
Lemma is_pointer_ptr q t : is_pointer (TPtr q t) = true.
Proof. unfold is_pointer. rewrite remove_cv_map. reflexivity. Qed.
Lemma is_pointer_not t : (forall q u, t <> TPtr q u) -> is_pointer t = false.
Proof. unfold is_pointer. rewrite remove_cv_map. destruct t; intros H; try reflexivity. exfalso. eapply H. reflexivity. Qed.
(** [u] is the type without reference *)
Lemma function_how u Fn : remove_reference Fn = u -> no_ref u -> abominable u = false ->
  invoke_function Fn =
    match u with
    | TPtr _ _ => Deref
    | TArr t _ => if abominable t then Plain else match t with TLref _ | TRref _ => Plain | _ => Deref end
    | TFun _ _ _ _ _ e => if e then Plain else Deref
    | _ => Plain
    end.
Proof.
  intros <- [A B] N. unfold invoke_function, decay.
  destruct (remove_reference Fn) as [q b|q t|q t c|t|t|t n|r l d q f e] eqn:E.
  - cbn [is_array]. rewrite is_function_not by discriminate. rewrite remove_cv_map. rewrite is_pointer_not; [reflexivity|]. intros. discriminate.
  - cbn [is_array]. rewrite is_function_not by discriminate. rewrite remove_cv_map. cbn [map_q]. rewrite is_pointer_ptr. reflexivity.
  - cbn [is_array]. rewrite is_function_not by discriminate. rewrite remove_cv_map. rewrite is_pointer_not; [reflexivity|]. intros. discriminate.
  - exfalso. eapply A. reflexivity.
  - exfalso. eapply B. reflexivity.
  - cbn [is_array]. rewrite is_function_not by discriminate. clear N. unfold remove_extent, ptr.
    destruct t as [| | | | | |r l d q f e]; try rewrite is_pointer_ptr; try reflexivity.
    destruct (abominable (TFun r l d q f e)); [reflexivity|]. rewrite is_pointer_ptr. reflexivity.
  - cbn [is_array]. rewrite is_function_fun. destruct e; cbn [negb].
    + rewrite remove_cv_map. rewrite is_pointer_not; [reflexivity|]. intros. discriminate.
    + unfold add_pointer, ptr. cbn [remove_reference]. rewrite N. rewrite is_pointer_ptr. reflexivity.
Qed.

(** what [invoke] does once neither of the two bools is set *)
Definition direct (env : classes) (f : expr) : bool :=
  match invoke_function (deduce f) with
  | Plain => match const_param (deduce f) with Some t => call_ok env t | None => false end
  | Deref => match const_param (deduce f) with Some t => deref_call_ok env t | None => false end
  | Member => false
  end.
Definition parameter (f : expr) : ty := match snd f with LValue => fst f | _ => add_const (fst f) end.
Lemma deduce_reference f : expression f -> remove_reference (deduce f) = fst f.
Proof. destruct f as [u []]; intros (A & B & _); cbn; try reflexivity; apply no_ref_reference; split; auto. Qed.
Lemma param_deduce f : expression f -> const_param (deduce f) = Some (parameter f).
Proof.
  destruct f as [u []]; intros (A & B & V & N & _ & _); unfold parameter; cbn [snd fst deduce] in *; [apply const_param_lref|..];
    apply const_param_plain; auto; split; auto.
Qed.
Lemma parameter_callable env f : callable env (parameter f) -> sensible env -> callable env (fst f).
Proof. destruct f as [u []]; unfold parameter; cbn; auto; intros H S; eapply const_weaken; eauto. Qed.
Lemma parameter_through env f : through env (parameter f) -> sensible env -> through env (fst f).
Proof. destruct f as [u []]; unfold parameter; cbn; auto; intros H S; eapply const_weaken_through; eauto. Qed.
Lemma parameter_fun f : (forall r l d q x e, fst f <> TFun r l d q x e) -> forall r l d q x e, parameter f <> TFun r l d q x e.
Proof. destruct f as [u k]; unfold parameter; cbn. intros H r l d q x e E. unfold add_const in E. destruct k, u; cbn in E; try discriminate; eapply H; reflexivity. Qed.

Lemma direct_spec env f : expression f -> direct env f = true <-> callable env (parameter f) \/ through env (parameter f).
Proof.
  intros X. pose proof X as (A & B & V & N & L & O). unfold direct. rewrite (param_deduce f X).
  rewrite (function_how (fst f) (deduce f) (deduce_reference f X)); [|split; assumption|assumption].
  destruct f as [u k]. cbn [fst snd] in *. unfold parameter. cbn [fst snd].
  destruct u as [q b|q t|q t c|t|t|t n|r l d q x e].
  - rewrite call_ok_spec. split; [auto|]. intros [H|H]; [exact H|]. destruct k; inversion H.
  - destruct k; unfold add_const; cbn [map_q]; (rewrite deref_ok_spec by discriminate; split; [auto|]; intros [H|H]; [|exact H]; inversion H; subst; constructor; constructor).
  - split; [destruct k; discriminate|]. intros [H|H]; destruct k; inversion H.
  - exfalso. eapply A. reflexivity.
  - exfalso. eapply B. reflexivity.
  - destruct (O t n eq_refl) as (O1 & O2 & O3).
    assert (abominable t = false) as -> by (destruct t; try reflexivity; exfalso; eapply O3; reflexivity).
    replace (match t with TLref _ | TRref _ => Plain | _ => Deref end) with Deref
      by (destruct t; try reflexivity; exfalso; [eapply O1|eapply O2]; reflexivity).
    destruct k; unfold add_const; cbn [map_q]; (rewrite deref_ok_spec by discriminate; split; [auto|]; intros [H|H]; [inversion H|exact H]).
  - assert (k = LValue) as -> by (destruct k; [reflexivity|exfalso; apply (L ltac:(discriminate) r l d q x e); reflexivity..]).
    split; [intros _; left; constructor|]. destruct e; reflexivity.
Qed.

Lemma invoke_direct env f args : is_member_function_pointer (deduce f) = false ->
  match args with a :: _ => is_member_object_pointer (deduce a) = false | [] => True end -> invoke env f args = direct env f.
Proof.
  intros M O. unfold invoke, invoke_how, invoke_impl, direct. destruct args as [|a args]; cbn [map].
  - destruct (invoke_function (deduce f)) eqn:E; try reflexivity.
  - unfold invoke_helper. rewrite M, O. destruct (invoke_function (deduce f)) eqn:E; try reflexivity.
    unfold invoke_function in E. destruct (decay _); [destruct (is_pointer _)|]; discriminate.
Qed.
Lemma invoke_member env f a args : is_member_function_pointer (deduce f) || is_member_object_pointer (deduce a) = true ->
  invoke env f (a :: args) = member_call_ok (fst f) (fst a).
Proof.
  intros M. unfold invoke, invoke_how, invoke_impl, invoke_helper. cbn [map].
  destruct (is_member_function_pointer _), (is_member_object_pointer _); try discriminate; reflexivity.
Qed.

Lemma member_object_first a : is_member_object_pointer (deduce a) = true <->
  snd a <> LValue /\ exists q t c, fst a = TMem q t c /\ is_function t = false.
Proof.
  destruct a as [u k]. cbn [fst snd]. split.
  - destruct k; cbn [deduce]; [rewrite member_object_other by discriminate; discriminate|..];
      (intros H; split; [discriminate|]; destruct u; try (rewrite member_object_other in H by discriminate; discriminate);
       rewrite member_object_mem in H; apply Bool.negb_true_iff in H; eauto).
  - intros (K & q & t & c & -> & F). destruct k; [congruence|..]; cbn [deduce]; rewrite member_object_mem, F; reflexivity.
Qed.
Lemma member_function_first f : is_member_function_pointer (deduce f) = true <->
  snd f <> LValue /\ exists q t c, fst f = TMem q t c /\ is_function t = true.
Proof.
  destruct f as [u k]. cbn [fst snd]. split.
  - destruct k; cbn [deduce]; [rewrite member_function_other by discriminate; discriminate|..];
      (intros H; split; [discriminate|]; destruct u; try (rewrite member_function_other in H by discriminate; discriminate);
       rewrite member_function_mem in H; eauto).
  - intros (K & q & t & c & -> & F). destruct k; [congruence|..]; cbn [deduce]; rewrite member_function_mem, F; reflexivity.
Qed.
Lemma is_function_true t : is_function t = true <-> exists r l d q f, t = TFun r l d q f false.
Proof.
  split.
  - destruct t as [| | | | | |r l d q f e]; try (rewrite is_function_not by discriminate; discriminate).
    rewrite is_function_fun. destruct e; [discriminate|]. eauto 10.
  - intros (r & l & d & q & f & ->). rewrite is_function_fun. reflexivity.
Qed.
Lemma is_function_false t : is_function t = false <-> forall r l d q f, t <> TFun r l d q f false.
Proof.
  split.
  - intros H r l d q f ->. rewrite is_function_fun in H. discriminate.
  - intros H. destruct (is_function t) eqn:E; [|reflexivity]. apply is_function_true in E as (r & l & d & q & f & ->). exfalso. eapply H. reflexivity.
Qed.
Lemma designates_spec o q n : designates o q n <-> object_of o = Some (q, n).
Proof.
  split; [intros []; reflexivity|]. unfold object_of.
  destruct o as [q' b|q' t|q' t c|t|t|t m|r l d q' f e]; try discriminate.
  - destruct b; try discriminate. intros [= -> ->]. constructor.
  - destruct t as [q'' b| | | | | |]; try discriminate. destruct b; try discriminate. intros [= -> ->]. constructor.
Qed.
Lemma covers_spec a b : covers a b = true <-> qualified_enough a b.
Proof. unfold covers, qualified_enough. destruct a as [[] []], b as [[] []]; cbn; intuition congruence. Qed.
Lemma callable_not_mem env q t c : ~ callable env (TMem q t c).
Proof. intros H. inversion H. Qed.
Lemma through_not_mem env q t c : ~ through env (TMem q t c).
Proof. intros H. inversion H. Qed.

Lemma direct_mem env q t c k : direct env (TMem q t c, k) = false.
Proof.
  unfold direct. rewrite (function_how (TMem q t c)); [|destruct k; reflexivity|split; discriminate|reflexivity].
  destruct k; reflexivity.
Qed.

Theorem invoke_standard env f args : sensible env -> expression f -> standard env f args ->
  (invoke env f args = true <-> ~ trouble env f args).
Proof.
  intros S X H. destruct H as [q r l d qf rf e c k o qo args D Q K|q t c k o qo F D|u k args C].
  - assert (OM : is_member_object_pointer (deduce o) = false).
    { destruct (is_member_object_pointer _) eqn:E; [|reflexivity]. apply member_object_first in E as (_ & ? & ? & ? & E & _).
      rewrite E in D. inversion D. }
    destruct (is_member_function_pointer (deduce (TMem q (TFun r l d qf rf e) c, k))) eqn:M.
    + rewrite invoke_member by (rewrite M; reflexivity). apply member_function_first in M as (L & ? & ? & ? & E & F).
      cbn [fst snd] in *. injection E as <- <- <-. rewrite is_function_fun in F. destruct e; [discriminate|].
      unfold member_call_ok. apply designates_spec in D. rewrite D, N.eqb_refl. apply covers_spec in Q. rewrite Q. cbn [andb].
      split.
      * intros R T. inversion T; subst; try congruence;
          first [eapply callable_not_mem; eassumption | match goal with Z : forall _ _ _ _ _ _, _ <> _ |- _ => eapply Z; reflexivity end].
      * intros T. destruct rf; try reflexivity. exfalso. apply T. apply rvalue_member.
    + rewrite invoke_direct by assumption. rewrite direct_mem. split; [discriminate|]. intros T. exfalso. apply T.
      destruct k; [apply named_member|..];
        (destruct e; [apply noexcept_member|]; exfalso; cbn [deduce] in M; rewrite member_function_mem, is_function_fun in M; discriminate).
  - assert (OM : is_member_object_pointer (deduce o) = false).
    { destruct (is_member_object_pointer _) eqn:E; [|reflexivity]. apply member_object_first in E as (_ & ? & ? & ? & E & _).
      rewrite E in D. inversion D. }
    rewrite invoke_direct.
    + rewrite direct_mem. split; [discriminate|]. intros T. exfalso. apply T. apply data_member. exact F.
    + destruct (is_member_function_pointer _) eqn:M; [|reflexivity]. apply member_function_first in M as (_ & ? & ? & ? & E & M).
      cbn [fst] in E. injection E as <- <- <-. apply is_function_true in M as (? & ? & ? & ? & ? & ->). exfalso. eapply F. reflexivity.
    + exact OM.
  - assert (M : is_member_function_pointer (deduce (u, k)) = false).
    { destruct (is_member_function_pointer _) eqn:M; [|reflexivity]. apply member_function_first in M as (_ & ? & ? & ? & E & M).
      cbn [fst] in E. subst u. exfalso. eapply callable_not_mem. exact C. }
    destruct (match args with a :: _ => is_member_object_pointer (deduce a) | [] => false end) eqn:O.
    + destruct args as [|a args]; [discriminate|]. rewrite invoke_member by (rewrite M, O; reflexivity).
      apply member_object_first in O as (L & q & t & c & E & F). destruct a as [ta ka]. cbn [fst snd] in *. subst ta.
      split.
      * intros W. unfold member_call_ok, object_of in W. destruct u as [| |? t' ?| | | |]; try discriminate. destruct t'; discriminate.
      * intros T. exfalso. apply T. apply member_first; [exact C|exact L|]. apply is_function_false. exact F.
    + rewrite invoke_direct; [|exact M|destruct args; [exact I|exact O]]. rewrite direct_spec by exact X. split.
      * intros W T. inversion T; subst; try (eapply callable_not_mem; exact C).
        -- apply Bool.not_true_iff_false in O. apply O. apply member_object_first. split; [assumption|]. do 3 eexists. split; [reflexivity|].
           apply is_function_false. assumption.
        -- unfold parameter in W. cbn [fst snd] in W. destruct k; [congruence|..];
             (destruct W as [W|W]; [|inversion W]; apply call_ok_spec in W; apply class_call_spec in W as [_ W]; cbn in W; congruence).
      * intros T. left. unfold parameter. cbn [fst snd]. destruct k; [exact C|..];
          (destruct C as [r l d q f e|q r l d q' f e|q n [V C]]; [constructor|constructor|];
           unfold add_const; cbn [map_q]; constructor; split; [exact V|]; cbn;
           destruct (const_op env n) eqn:E; [reflexivity|]; exfalso; apply T; apply mutable_object; [discriminate|exact E]).
Qed.

Theorem invoke_only env f args : sensible env -> expression f -> invoke env f args = true -> standard env f args \/ extension env f args.
Proof.
  intros S X H.
  destruct (match args with a :: _ => is_member_function_pointer (deduce f) || is_member_object_pointer (deduce a) | [] => false end) eqn:O.
  - destruct args as [|a args]; [discriminate|]. rewrite invoke_member in H by exact O.
    destruct f as [u k]. unfold member_call_ok in H. cbn [fst] in H.
    destruct u as [| |q t c| | | |]; try discriminate. destruct t as [| | | | | |r l d qf rf e]; try discriminate.
    destruct (object_of (fst a)) as [[qo n]|] eqn:D; [|discriminate]. apply designates_spec in D.
    apply andb_prop in H as [H R]. apply andb_prop in H as [C Q]. apply N.eqb_eq in C as <-. apply covers_spec in Q.
    destruct rf; [| |discriminate].
    + left. eapply inv_member_function; [exact D|exact Q|exact I].
    + right. eapply ext_lvalue_member; [exact D|exact Q].
  - destruct (is_member_function_pointer (deduce f)) eqn:M.
    + destruct args as [|a args]; [|discriminate O]. apply member_function_first in M as (_ & q & t & c & E & _).
      destruct f as [u k]. cbn [fst] in E. subst u. exfalso.
      assert (D : direct env (TMem q t c, k) = true).
      { unfold invoke, invoke_how, invoke_impl in H. cbn [map] in H. unfold direct. destruct (invoke_function _); [exact H..|discriminate]. }
      rewrite direct_mem in D. discriminate.
    + rewrite invoke_direct in H; [|exact M|destruct args; [exact I|exact O]]. apply direct_spec in H; [|exact X].
      destruct f as [u k]. destruct H as [H|H].
      * left. apply inv_call. apply (parameter_callable env (u, k)); assumption.
      * right. apply ext_through. apply (parameter_through env (u, k)); assumption.
Qed.

(** ** The two constructors *)
Lemma quals_eqb_refl q : quals_eqb q q = true.
Proof. destruct q as [[] []]; reflexivity. Qed.
Lemma same_refl : forall t, same_type t t = true.
Proof.
  fix IH 1. intros [q b|q t|q t c|t|t|t n|r l d q f e]; cbn [same_type].
  - rewrite quals_eqb_refl. destruct b; cbn; try reflexivity; apply N.eqb_refl.
  - rewrite quals_eqb_refl, IH. reflexivity.
  - rewrite quals_eqb_refl, IH, N.eqb_refl. reflexivity.
  - apply IH.
  - apply IH.
  - rewrite IH. destruct n; [apply N.eqb_refl|reflexivity].
  - rewrite IH, quals_eqb_refl, !Bool.eqb_reflx. rewrite Bool.andb_true_r.
    assert (refq_same f f = true) as -> by (destruct f; reflexivity). rewrite !Bool.andb_true_r. cbn [andb].
    induction l as [|x l IHl]; [reflexivity|]. rewrite IH. exact IHl.
Qed.

Theorem declares_spec T : declares T = true <-> (forall u, T <> TLref u) /\ is_void_ty T = false /\ abominable T = false.
Proof.
  split.
  - intros H. unfold declares, two_constructors in H. destruct T as [q b|q t|q t c|t|t|t n|r l d q f e].
    + split; [discriminate|]. split; [|reflexivity]. destruct b; try reflexivity. discriminate.
    + repeat split; discriminate.
    + repeat split; discriminate.
    + cbn in H. rewrite same_refl in H. discriminate.
    + repeat split; discriminate.
    + repeat split; discriminate.
    + split; [discriminate|]. split; [reflexivity|]. unfold add_const in H. cbn [map_q] in H. unfold lref, rref in H.
      cbn [is_void_ty orb] in H. destruct (abominable _); [discriminate|reflexivity].
  - intros (L & V & N). unfold declares, two_constructors. destruct T as [q b|q t|q t c|t|t|t n|r l d q f e]; try reflexivity.
    + unfold add_const. cbn [map_q]. unfold lref, rref. destruct b; try reflexivity. discriminate.
    + exfalso. eapply L. reflexivity.
    + unfold add_const. cbn [map_q]. unfold lref, rref. rewrite N. reflexivity.
Qed.
Lemma declares_exact T : declares T = true <->
  (forall u, T <> TLref u) /\ (forall q, T <> TBase q Void) /\ (forall r l d q f e, T = TFun r l d q f e -> q = none /\ f = NoRef).
Proof.
  rewrite declares_spec.
  assert (V : is_void_ty T = false <-> (forall q, T <> TBase q Void)).
  { destruct T as [q b| | | | | |]; try (split; [discriminate|reflexivity]). destruct b; try (split; [discriminate|reflexivity]).
    split; [discriminate|]. intros H. now elim (H q). }
  assert (A : abominable T = false <-> (forall r l d q f e, T = TFun r l d q f e -> q = none /\ f = NoRef)).
  { destruct T as [q b|q t|q t c|t|t|t n|r l d q f e]; try (split; [discriminate|reflexivity]). split.
    - intros H r0 l0 d0 q0 f0 e0 E. injection E as <- <- <- <- <- <-. destruct q as [[] []]; try discriminate H. destruct f; try discriminate H. split; reflexivity.
    - intros H. destruct (H r l d q f e eq_refl) as [-> ->]. reflexivity. }
  rewrite V, A. reflexivity.
Qed.
Lemma declares_deduce f : expression f -> declares (deduce f) = true <-> snd f <> LValue.
Proof.
  intros (A & B & V & N & _). destruct f as [u k]. cbn [fst snd] in *. rewrite declares_spec. split.
  - intros (L & _) ->. eapply L. reflexivity.
  - intros K. destruct k; [congruence|..]; repeat split; auto.
Qed.

Lemma lvalue_direct env u args : expression (u, LValue) -> Forall (fun a => snd a = LValue) args ->
  (invoke env (u, LValue) args = true <-> callable env u \/ through env u).
Proof.
  intros X A. rewrite invoke_direct.
  - rewrite direct_spec by exact X. reflexivity.
  - apply member_function_other. discriminate.
  - destruct args as [|[t k] args]; [exact I|]. inversion A as [|? ? K]; subst. cbn in K. subst k. apply member_object_other. discriminate.
Qed.
Theorem function_from_spec env f Args : expression f ->
  (function_from env f Args = true <-> snd f <> LValue /\ (callable env (fst f) \/ through env (fst f))).
Proof.
  intros X. unfold function_from. rewrite Bool.andb_true_iff. rewrite declares_deduce by exact X.
  rewrite (deduce_reference f X). destruct f as [u k]. cbn [fst snd].
  assert (Y : expression (u, LValue)).
  { destruct X as (A & B & V & N & L & O). cbn [fst snd] in *. split_and!; auto. }
  rewrite lvalue_direct; [reflexivity|exact Y|]. apply Forall_map. apply Forall_forall. intros; reflexivity.
Qed.
Theorem function_call_spec env n Args : function_call env n Args = any_op env n.
Proof.
  unfold function_call. rewrite invoke_direct.
  - reflexivity.
  - reflexivity.
  - destruct Args; [exact I|]. apply member_object_other. discriminate.
Qed.
Theorem make_tuple_spec empty args : Forall expression args -> (make_tuple empty args = true <-> Forall (fun e => snd e <> LValue) args).
Proof.
  intros X. unfold make_tuple. induction X as [|e args E X IH]; cbn [forallb]; [split; auto|].
  rewrite Bool.andb_true_iff, IH, Forall_cons.
  assert (tuple_value empty (deduce e) = true <-> snd e <> LValue) as ->; [|reflexivity].
  rewrite <- declares_deduce by exact E. unfold tuple_value. destruct (deduce e) as [q b| | | | | |] eqn:D; try reflexivity.
  destruct b; try reflexivity. destruct (empty n); [|reflexivity]. split; reflexivity.
Qed.
Theorem apply_spec env f b Ts : expression f -> (apply env f b Ts = true <-> callable env (fst f) \/ through env (fst f)).
Proof.
  intros X. unfold apply. destruct f as [u k]. cbn [fst].
  apply lvalue_direct.
  - destruct X as (A & B & V & N & L & O). cbn [fst snd] in *. split_and!; auto.
  - apply Forall_map. apply Forall_forall. intros; reflexivity.
Qed.
