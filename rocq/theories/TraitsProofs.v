From stdpp Require Import list.
From Coq Require Import NArith Lia Bool.
From Verif Require Import TraitsModel TraitsSpec.
Local Open Scope N_scope.

Lemma map_q_requalified (R : quals -> quals -> Prop) f t :
  R (quals_of t) (f (quals_of t)) \/ (forall q, R q (f q)) -> requalified R t (map_q f t).
Proof.
  intros H. induction t; cbn in *; try (constructor; destruct H as [H|H]; auto; fail); try (constructor; auto).
Qed.
Lemma map_q_id f t : f (quals_of t) = quals_of t -> map_q f t = t.
Proof. induction t; cbn; intros H; try congruence. f_equal; auto. Qed.
Lemma remove_const_eq t : remove_const t = map_q no_c t.
Proof.
  unfold remove_const, as_const. destruct (is_c (quals_of t)) eqn:E; [reflexivity|].
  symmetry; apply map_q_id. unfold no_c. destruct (quals_of t); cbn in *; congruence.
Qed.
Lemma remove_volatile_eq t : remove_volatile t = map_q no_v t.
Proof.
  unfold remove_volatile, as_volatile. destruct (is_v (quals_of t)) eqn:E; [reflexivity|].
  symmetry; apply map_q_id. unfold no_v. destruct (quals_of t); cbn in *; congruence.
Qed.
Lemma map_q_comp f g t : map_q f (map_q g t) = map_q (fun q => f (g q)) t.
Proof. induction t; cbn; auto. f_equal; auto. Qed.
Lemma remove_cv_eq t : remove_cv t = map_q (fun _ => none) t.
Proof. unfold remove_cv. rewrite remove_const_eq, remove_volatile_eq, map_q_comp. reflexivity. Qed.

Lemma qualifiers t :
  requalified (drops true false) t (remove_const t) /\ requalified (drops false true) t (remove_volatile t) /\
  requalified (drops true true) t (remove_cv t) /\ requalified (adds true false) t (add_const t) /\
  requalified (adds false true) t (add_volatile t) /\ requalified (adds true true) t (add_cv t) /\
  is_const t = is_c (quals_of t) /\ is_volatile t = is_v (quals_of t).
Proof.
  rewrite remove_const_eq, remove_volatile_eq, remove_cv_eq. unfold add_cv, add_const, add_volatile. rewrite map_q_comp.
  repeat split; try (apply map_q_requalified; right; intros [[] []]; split; reflexivity).
  - unfold is_const, as_const. destruct (is_c _); reflexivity.
  - unfold is_volatile, as_volatile. destruct (is_v _); reflexivity.
Qed.

Lemma requalified_functional (R : quals -> quals -> Prop) t u u' :
  (forall q q1 q2, R q q1 -> R q q2 -> q1 = q2) -> requalified R t u -> requalified R t u' -> u = u'.
Proof.
  intros HR H. revert u'. induction H; intros u' H'; inversion H'; subst; f_equal; eauto.
Qed.

Lemma reference_shape t :
  remove_reference t = referred t /\
  is_lvalue_reference t = match t with TLref _ => true | _ => false end.
Proof. destruct t; auto. Qed.
Lemma add_lvalue t : referenceable t -> add_lvalue_reference t = Some (TLref (referred t)).
Proof.
  destruct t as [q b|q t|q t c|t|t|t n|r a d q f e]; cbn; auto.
  - unfold referenceable; cbn. destruct b; cbn; tauto.
  - unfold referenceable; cbn. intros [-> ->]. reflexivity.
Qed.
Lemma add_rvalue t : referenceable t ->
  add_rvalue_reference t = Some (match t with TLref u => TLref u | _ => TRref (referred t) end).
Proof.
  destruct t as [q b|q t|q t c|t|t|t n|r a d q f e]; cbn; auto.
  - unfold referenceable; cbn. destruct b; cbn; tauto.
  - unfold referenceable; cbn. intros [-> ->]. reflexivity.
Qed.
Lemma add_ptr t : pointable t -> add_pointer t = Some (TPtr none (referred t)).
Proof.
  unfold add_pointer, pointable. rewrite (proj1 (reference_shape t)). destruct (referred t); cbn; try tauto.
  intros [-> ->]. reflexivity.
Qed.
Lemma void_reference q : add_lvalue_reference (TBase q Void) = None /\ add_rvalue_reference (TBase q Void) = None.
Proof. split; reflexivity. Qed.

Lemma is_function_eq r a d q f e : is_function (TFun r a d q f e) = negb e.
Proof. destruct d, q as [[] []], f, e; reflexivity. Qed.
Lemma decay_ok t u : decays t u -> ~ noexcept_function (referred t) ->
  (match referred t with TArr (TFun _ _ _ _ _ _) _ | TArr (TLref _) _ | TArr (TRref _) _ => False | _ => True end) -> decay t = Some u.
Proof.
  unfold decays, decay. rewrite (proj1 (reference_shape t)).
  intros H N W. destruct H; unfold is_array; cbn [is_function existsb fits]; try (cbn; rewrite ?remove_cv_eq; reflexivity).
  - destruct t0; cbn in *; try tauto.
  - destruct e; [destruct N; exact I|]. destruct d; reflexivity.
Qed.
Lemma decay_noexcept r a d q f : decay (TFun r a d q f true) = Some (TFun r a d q f true).
Proof.
  unfold decay. cbn [remove_reference]. rewrite is_function_eq. cbn [is_array negb]. rewrite remove_cv_eq. reflexivity.
Qed.
(** whatever decay answers is not a reference, array or cv-qualified *)
Lemma decay_plain t u : decay t = Some u -> ~ noexcept_function (referred t) ->
  match referred t with TLref _ | TRref _ => False | _ => True end ->
  match u with TBase q _ | TPtr q _ | TMem q _ _ => q = none | _ => False end.
Proof.
  unfold decay. rewrite (proj1 (reference_shape t)).
  destruct (referred t) as [q b|q t0|q t0 c|t0|t0|t0 n|r a d q f e]; cbn [is_array remove_extent];
    rewrite ?is_function_eq; cbn [is_function existsb fits andb orb negb].
  all: try (rewrite remove_cv_eq; intros [= <-]; cbn; tauto).
  - intros H _ _. unfold ptr in H. destruct t0; cbn in H; try congruence; try (injection H as <-; reflexivity).
    destruct (_ || _); [discriminate|]. injection H as <-; reflexivity.
  - destruct e; cbn; [tauto|]. unfold add_pointer, ptr; cbn. destruct (_ || _); [discriminate|]. intros [= <-]; reflexivity.
Qed.

Lemma categories t : ~ forgotten t -> forall c, trait c t = true <-> category_of t = c.
Proof.
  intros F c. destruct t as [q b|q t|q t k|t|t|t n|r a d q f e].
  - destruct b, c; cbn in F |- *; unfold is_integral, is_float, is_void, is_pointer, is_member_object_pointer, is_member_function_pointer;
      rewrite ?remove_cv_eq; cbn; try tauto; split; congruence.
  - destruct c; cbn; unfold is_integral, is_float, is_void, is_pointer, is_member_object_pointer, is_member_function_pointer;
      rewrite ?remove_cv_eq; cbn; try tauto; split; congruence.
  - assert (K : category_of (TMem q t k) = if is_function t then CMemFun else CMemObj).
    { destruct t; cbn [category_of]; try reflexivity. rewrite is_function_eq. destruct noexc; [destruct F; exact I|reflexivity]. }
    rewrite K. destruct c; cbn [trait]; unfold is_integral, is_float, is_void, is_pointer, is_member_object_pointer, is_member_function_pointer;
      rewrite ?remove_cv_eq; cbn [map_q none is_c is_v orb negb andb]; destruct (is_function t) eqn:E;
      cbn; try tauto; split; congruence.
  - destruct c; cbn; unfold is_integral, is_float, is_void, is_pointer, is_member_object_pointer, is_member_function_pointer;
      rewrite ?remove_cv_eq; cbn; try tauto; split; congruence.
  - destruct c; cbn; unfold is_integral, is_float, is_void, is_pointer, is_member_object_pointer, is_member_function_pointer;
      rewrite ?remove_cv_eq; cbn; try tauto; split; congruence.
  - destruct c; cbn; unfold is_integral, is_float, is_void, is_pointer, is_member_object_pointer, is_member_function_pointer;
      rewrite ?remove_cv_eq; cbn; try tauto; split; congruence.
  - assert (e = false) as -> by (destruct e; [destruct F; exact I|reflexivity]).
    destruct c; cbn [trait category_of]; rewrite ?is_function_eq; cbn [negb];
      unfold is_integral, is_float, is_void, is_pointer, is_member_object_pointer, is_member_function_pointer;
      rewrite ?remove_cv_eq; cbn; try tauto; split; congruence.
Qed.
(** and on a forgotten type its own trait never answers true *)
Lemma forgotten_wrong t : forgotten t -> trait (category_of t) t = false.
Proof.
  destruct t as [q b|q t|q t k|t|t|t n|r a d q f e]; cbn; try tauto.
  - destruct b; cbn; try tauto; intros _; unfold is_integral; rewrite ?remove_cv_eq; reflexivity.
  - destruct t; cbn [trait]; try tauto. destruct noexc; [|tauto]. intros _. cbn [trait].
    unfold is_member_function_pointer. rewrite remove_cv_eq. cbn [map_q]. rewrite is_function_eq. reflexivity.
  - destruct e; [|tauto]. intros _. exact (is_function_eq r a d q f true).
Qed.

Lemma or_ok l : or_ l = existsb id l.
Proof. induction l as [|a [|b l] IH]; cbn in *; [reflexivity|destruct a; reflexivity|]. rewrite IH. destruct a; reflexivity. Qed.
Lemma and_is l : and_ l = match l with [] => true | _ => existsb id l end.
Proof. induction l as [|a [|b l] IH]; cbn in *; [reflexivity|destruct a; reflexivity|]. rewrite IH. destruct a; reflexivity. Qed.
Lemma and_agrees l : and_ l = forallb id l <-> forall a b, a ∈ l -> b ∈ l -> a = b.
Proof.
  rewrite and_is. destruct l as [|x l]; [cbn; split; [intros _ a b H; inversion H|reflexivity]|].
  split.
  - intros E. destruct (forallb id (x :: l)) eqn:F.
    + rewrite forallb_forall in F. intros a b Ha Hb. apply elem_of_list_In in Ha, Hb.
      apply F in Ha. apply F in Hb. unfold id in *. congruence.
    + intros a b Ha Hb. apply elem_of_list_In in Ha, Hb.
      assert (K : forall c, In c (x :: l) -> c = false).
      { intros c Hc. destruct c; [|reflexivity].
        assert (existsb id (x :: l) = true) by (apply existsb_exists; exists true; auto). congruence. }
      rewrite (K a Ha), (K b Hb). reflexivity.
  - intros H. assert (K : forall c, In c (x :: l) -> c = x) by (intros c Hc; apply H; apply elem_of_list_In; [exact Hc|left; reflexivity]).
    destruct x.
    + cbn. symmetry. apply forallb_forall. intros c Hc. unfold id. apply K. right; exact Hc.
    + cbn. destruct (existsb id l) eqn:E; [|reflexivity].
      apply existsb_exists in E as (c & Hc & E). unfold id in E. rewrite (K c (or_intror Hc)) in E. discriminate.
Qed.

Lemma implicit_accepted d T A : implicit d A T -> is_convertible T A = Some true.
Proof.
  unfold is_convertible, c_cast. intros H. destruct H as [t u Ht Hu|p q t u Hr Ho|p q t q' _ Ho|p q a b q0 q1 _ _].
  - rewrite Ht, Hu. reflexivity.
  - rewrite Ho. cbn [arithmetic andb]. assert (object_pointer (TPtr q u) = true) as ->; [|reflexivity].
    destruct Hr; cbn in *; congruence.
  - rewrite Ho. reflexivity.
  - reflexivity.
Qed.
Lemma pointers_accepted T A : object_pointer T = true -> object_pointer A = true -> is_convertible T A = Some true.
Proof.
  intros HT HA. unfold is_convertible, c_cast. rewrite HT, HA.
  destruct (arithmetic T) eqn:E; [|reflexivity]. destruct T; discriminate.
Qed.
Lemma cast_exact T A : number_or_pointer T -> number_or_pointer A -> (is_convertible T A = Some true <-> castable A T) /\ is_convertible T A <> None.
Proof.
  intros HT HA. unfold is_convertible, c_cast. split.
  - split.
    + destruct (arithmetic T) eqn:aT, (arithmetic A) eqn:aA; cbn [andb].
      * intros _. apply ca_arith; assumption.
      * destruct HA as [HA|HA]; [congruence|]. rewrite HA, andb_true_r. destruct (object_pointer T) eqn:oT; [destruct T; discriminate|]. cbn [andb].
        intros E. destruct T as [q b| | | | | |]; try discriminate. destruct b; try discriminate;
          first [apply ca_null; exact HA|eapply ca_from_pointer; [exact HA|reflexivity|vm_compute; discriminate]].
      * destruct HT as [HT|HT]; [congruence|]. rewrite HT. destruct (object_pointer A) eqn:oA; [destruct A; discriminate|]. cbn [andb].
        intros E. destruct A as [q b| | | | | |]; try discriminate. destruct b; try discriminate; (eapply ca_to_pointer; [reflexivity|exact HT]).
      * destruct HT as [HT|HT]; [congruence|]. destruct HA as [HA|HA]; [congruence|]. intros _. apply ca_pointer; assumption.
    + intros H. destruct H as [t u Ht Hu|t u Ht Hu|q b n u Hb Hu|t q b n Ht Hb Hn|t q Ht].
      * rewrite Ht, Hu. reflexivity.
      * rewrite Ht, Hu. destruct u; try discriminate. reflexivity.
      * rewrite Hu. destruct u; try discriminate. destruct b; try discriminate; reflexivity.
      * rewrite Ht. destruct t; try discriminate. destruct b; try discriminate; try reflexivity; injection Hb as <-; exfalso; vm_compute in Hn; apply Hn; reflexivity.
      * rewrite Ht. destruct t; try discriminate. reflexivity.
  - destruct HT as [HT|HT], HA as [HA|HA]; rewrite HT, HA; rewrite ?andb_true_r; cbn [andb].
    + discriminate.
    + destruct (arithmetic A); [discriminate|]. destruct (object_pointer T); discriminate.
    + destruct (arithmetic T); [discriminate|]. destruct (object_pointer A); discriminate.
    + destruct (arithmetic T && arithmetic A); discriminate.
Qed.
Lemma not_implicit d : ~ implicit d (TPtr none (TBase none Int)) (TPtr none (TBase none Double)).
Proof. intros H. inversion H; subst; try discriminate. match goal with K : requalified _ _ _ |- _ => inversion K end. Qed.

Lemma nth_from n i l : n <= i -> nth_type_from n i l = l !! N.to_nat (i - n).
Proof.
  revert n. induction l as [|t l IH]; intros n H; cbn; [reflexivity|].
  destruct (N.eqb_spec n i) as [->|Hne].
  - replace (i - i) with 0 by lia. reflexivity.
  - rewrite IH by lia. replace (N.to_nat (i - n)) with (S (N.to_nat (i - (n + 1)))) by lia. reflexivity.
Qed.
Lemma nth_ok i l : nth_type i l = l !! N.to_nat i.
Proof. unfold nth_type. rewrite nth_from by lia. f_equal. lia. Qed.

Lemma rref_proper e : proper e -> rref (fst e) = Some (TRref (fst e)).
Proof.
  unfold proper. destruct (fst e) as [q b|q t|q t c|t|t|t n|r a d q f x]; unfold referenceable; cbn; try tauto.
  - destruct b; tauto.
  - intros [-> ->]. reflexivity.
Qed.
(** a function template with parameter T&& that forwards its (named, hence lvalue) parameter passes on what it got *)
Lemma forward_perfect e : proper e ->
  forward (deduce e) (fst e, LValue) = Some (fst e, match snd e with LValue => LValue | _ => XValue end).
Proof.
  intros P. pose proof (rref_proper e P) as R.
  destruct e as [u k]; cbn in *. unfold forward; cbn [snd].
  destruct k; cbn [deduce]; [reflexivity|..]; rewrite R; reflexivity.
Qed.
Lemma forward_refuses u k : k <> LValue -> forward (TLref u) (u, k) = None.
Proof. destruct k; cbn; congruence. Qed.
Lemma move_ok e : proper e -> move e = Some (fst e, XValue).
Proof.
  intros P. pose proof (rref_proper e P) as R.
  unfold move. assert (remove_reference (deduce e) = fst e) as ->.
  { destruct e as [u k]; cbn in *. destruct k; cbn; [reflexivity|..]; unfold proper in P; destruct u; cbn in *; tauto || reflexivity. }
  rewrite R. reflexivity.
Qed.
Lemma not_ok b : not_ b = true <-> b <> true.
Proof. destruct b; cbn; split; congruence. Qed.
Lemma extent_ok t :
  (forall u n, t = TArr u n -> remove_extent t = u) /\ ((forall u n, t <> TArr u n) -> remove_extent t = t) /\
  exists bounds, t = fold_right (fun n u => TArr u n) (remove_all_extent t) bounds /\ forall u n, remove_all_extent t <> TArr u n.
Proof.
  split; [intros u n ->; reflexivity|]. split; [intros H; destruct t; try reflexivity; exfalso; eapply H; reflexivity|].
  induction t; try (exists []; split; [reflexivity|cbn; discriminate]).
  destruct IHt as (bs & E & H). exists (n :: bs). cbn. rewrite <- E. split; [reflexivity|exact H].
Qed.
