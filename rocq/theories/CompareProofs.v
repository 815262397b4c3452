(** Proofs about CompareModel.v. *)
From Coq Require Import ZArith NArith List Bool Lia.
From Verif Require Import Base CompareModel CompareSpec.
Import ListNotations.
Local Open Scope outcome_scope.

Lemma compiles_exact t : forall o x y, compiles t o x y = fits (taken t o) x y.
Proof.
  induction t as [| | | | | | | | | | | | | | |a IHa b IHb|a IHa|a IHa|a IHa]; intros o [c1 t1] [c2 t2];
    try (destruct o, c1, t1, c2, t2; reflexivity).
  - cbn [compiles declares taken binds]. rewrite !IHa, !IHb. destruct o; cbn [forallb];
      destruct (taken a Eq), (taken a Lt), (taken b Eq), (taken b Lt); reflexivity.
  - destruct o; cbn [compiles declares taken binds relational]; rewrite ?IHa; try reflexivity. destruct (taken a Ne); reflexivity.
  - destruct o; cbn [compiles declares taken binds relational cst]; rewrite ?IHa; try reflexivity; destruct (taken a Ne), c1; reflexivity.
  - cbn [compiles declares taken binds]. rewrite IHa. destruct (taken a o); reflexivity.
Qed.

Lemma complete_takes t o : complete t = true -> taken t o = if standard t o then Everything else Nothing.
Proof.
  revert o. induction t as [| | | | | | | | | | | | | | |a IHa b IHb|a IHa|a IHa|a IHa]; intros o H; try discriminate; try (destruct o; reflexivity).
  - cbn [complete] in H. apply andb_true_iff in H as [Ha Hb]. cbn [taken standard].
    assert (S : forall t, complete t = true -> standard t Lt = true -> standard t Eq = true).
    { clear. induction t as [| | | | | | | | | | | | | | |a IHa b IHb|a IHa|a IHa|a IHa]; cbn; intros; auto; try discriminate.
      apply andb_true_iff in H as [? ?], H0 as [? ?]. rewrite IHa, IHb; auto. }
    pose proof (S a Ha) as Sa. pose proof (S b Hb) as Sb. rewrite ?(IHa _ Ha), ?(IHb _ Hb).
    destruct o; cbn [relational forallb]; rewrite ?(IHa _ Ha), ?(IHb _ Hb);
      destruct (standard a Lt), (standard b Lt), (standard a Eq), (standard b Eq); try reflexivity;
      try (specialize (Sa eq_refl); discriminate); specialize (Sb eq_refl); discriminate.
  - cbn [taken standard]. cbn [complete] in H. rewrite (IHa o H). destruct (standard a o); reflexivity.
Qed.
Lemma complete_compiles t o x y : complete t = true -> compiles t o x y = standard t o.
Proof. intros H. rewrite compiles_exact, (complete_takes t o H). destruct (standard t o); reflexivity. Qed.

Lemma taken_boxed t : forall o, taken t o <> Nothing -> standard t o = true \/ boxed t = true.
Proof.
  induction t as [| | | | | | | | | | | | | | |a IHa b IHb|a IHa|a IHa|a IHa]; intros o H; auto;
    try (destruct o; cbn in *; auto; now elim H).
  - cbn [taken standard boxed] in *.
    assert (E : forall p, match taken a p, taken b p with Everything, Everything => true | _, _ => false end = true ->
              standard a p && standard b p = true \/ boxed a || boxed b = true).
    { intros p E. specialize (IHa p). specialize (IHb p). destruct (taken a p), (taken b p); try discriminate.
      destruct IHa as [->| ->]; [discriminate| |right; reflexivity]. destruct IHb as [->| ->]; [discriminate| |right; apply orb_true_r]. left. reflexivity. }
    destruct o; cbn [relational forallb] in *;
      try (destruct (match taken a Eq, taken b Eq with Everything, Everything => true | _, _ => false end) eqn:EE; [apply (E _ EE)|now elim H]);
      (destruct (match taken a Lt, taken b Lt with Everything, Everything => true | _, _ => false end) eqn:EE; [apply (E _ EE)|now elim H]).
  - cbn [taken standard boxed] in *. destruct o; try now elim H. specialize (IHa Ne). cbn [relational].
    assert (standard a Ne = standard a Eq) as SE.
    { clear. induction a; cbn; auto. }
    rewrite SE in IHa. destruct (taken a Ne); try (now elim H); apply IHa; discriminate.
  - cbn [taken standard boxed] in *. specialize (IHa Ne).
    assert (standard a Ne = standard a Eq) as SE.
    { clear. induction a; cbn; auto. }
    rewrite SE in IHa. destruct (relational o); [now elim H|]. destruct (taken a Ne); try (now elim H); apply IHa; discriminate.
  - cbn [taken standard boxed] in *. specialize (IHa o). destruct (taken a o); try (now elim H); apply IHa; discriminate.
Qed.
Lemma compiles_boxed t o x y : compiles t o x y = true -> standard t o = true \/ boxed t = true.
Proof.
  rewrite compiles_exact. intros H. apply taken_boxed. intros E. rewrite E in H. discriminate.
Qed.

Lemma key_exact t : can_be_key t = key t.
Proof.
  unfold can_be_key. rewrite compiles_exact. 
  assert (G : taken t Lt = if ordered t then Everything else match t with TShared => Variables | _ => Nothing end).
  { induction t as [| | | | | | | | | | | | | | |a IHa b IHb|a IHa|a IHa|a IHa]; try reflexivity.
    - cbn [taken forallb ordered]. rewrite IHa, IHb. destruct (ordered a), (ordered b); try reflexivity; destruct a, b; reflexivity.
    - cbn [taken ordered]. rewrite IHa. destruct (ordered a); [reflexivity|]. destruct a; reflexivity. }
  rewrite G. unfold key. destruct t; try reflexivity; cbn [fits negb pair_type]; rewrite ?andb_false_r, ?andb_true_r; try reflexivity. destruct (ordered (TRev t)); reflexivity.
Qed.

Lemma vec_vec a b x y : compiles (TVec a) Ne x y = false /\ compiles (TVec (TVec b)) Eq x y = false /\ compiles (TVec TShared) Eq x y = false /\
  compiles (TList TShared) Eq x y = false /\ compiles (TPair TShared b) Eq x y = false.
Proof.
  rewrite !compiles_exact. repeat split.
Qed.

(** ** Answers *)
Lemma zop_order o x y : zop o x y = match o with
  | Eq => zop Eq x y | Ne => negb (zop Eq x y) | Lt => zop Lt x y | Le => zop Lt x y || zop Eq x y
  | Gt => zop Lt y x | Ge => negb (zop Lt x y) end.
Proof. destruct o; try reflexivity; cbn; lia. Qed.
Lemma presence_eq p q : (presence p =? presence q)%Z = true <-> alike TAny (VBox p) (VBox q).
Proof. destruct p, q; cbn; split; try easy; discriminate. Qed.
Lemma chars_zero s : forall t, length s = length t -> (chars_compare s t = 0%Z <-> s = t).
Proof.
  induction s as [|a s IH]; intros [|b t] L; try discriminate; [easy|]. cbn [chars_compare].
  destruct (Z.ltb_spec a b); [split; [discriminate|intros E; injection E as <- _; lia]|].
  destruct (Z.ltb_spec b a); [split; [discriminate|intros E; injection E as <- _; lia]|].
  assert (a = b) as -> by lia. rewrite IH by (injection L; auto). split; [intros ->; reflexivity|intros E; injection E; auto].
Qed.
Lemma view_zero s t : view_compare s t = 0%Z <-> s = t.
Proof.
  unfold view_compare. destruct (Nat.ltb_spec (length s) (length t)); [split; [discriminate|intros ->; lia]|].
  destruct (Nat.ltb_spec (length t) (length s)); [split; [discriminate|intros ->; lia]|]. apply chars_zero. lia.
Qed.
Lemma chars_anti s : forall t, length s = length t -> chars_compare t s = Z.opp (chars_compare s t).
Proof.
  induction s as [|a s IH]; intros [|b t] L; try discriminate; [reflexivity|]. cbn [chars_compare].
  destruct (Z.ltb_spec a b), (Z.ltb_spec b a); try lia; try reflexivity. apply IH. injection L; auto.
Qed.
Lemma view_anti s t : view_compare t s = Z.opp (view_compare s t).
Proof.
  unfold view_compare. destruct (Nat.ltb_spec (length s) (length t)), (Nat.ltb_spec (length t) (length s)); try lia; try reflexivity.
  apply chars_anti. lia.
Qed.

Lemma loop_exact (ne : val -> val -> outcome bool) (E : val -> val -> Prop) l : forall i r, length l = length r ->
  (i + Z.of_nat (length l) < 2 ^ 31)%Z ->
  Forall2 (fun v w => exists b, ne v w = Ok b /\ (b = true <-> ~ E v w)) l r ->
  (forall v w, E v w \/ ~ E v w) ->
  exists b, seq_loop ne i l r = Ok b /\ (b = true <-> Forall2 E l r).
Proof.
  induction l as [|v l IH]; intros i [|w r] L B F D; try discriminate.
  - exists true. split; [reflexivity|]. split; auto.
  - inversion F as [|? ? ? ? (b & Hb & Eb) F' Q1 Q2]; subst. cbn [seq_loop]. rewrite Hb. cbn [obind]. cbn [length] in B. destruct b.
    + exists false. split; [reflexivity|]. split; [discriminate|]. intros X. inversion X; subst. destruct (proj1 Eb eq_refl); assumption.
    + replace (i + 1 <? 2 ^ 31)%Z with true by (symmetry; apply Z.ltb_lt; lia).
      destruct (IH (i + 1)%Z r) as (c & Hc & Ec); [injection L; auto|lia|assumption|exact D|].
      exists c. split; [exact Hc|]. rewrite Ec. split; intros X.
      * constructor; [|exact X]. destruct (D v w) as [X1|X1]; [exact X1|]. apply Eb in X1. discriminate.
      * inversion X; assumption.
Qed.

Lemma alike_dec t : forall v w, alike t v w \/ ~ alike t v w.
Proof.
  assert (VD : forall v w : val, v = w \/ v <> w).
  { fix VD 1. intros v w. destruct v, w; try (right; discriminate).
    - destruct (Z.eq_dec z z0) as [->|N]; [left; reflexivity|right; congruence].
    - destruct (N.eq_dec a a0) as [->|N]; [left; reflexivity|right; congruence].
    - destruct o as [x|], o0 as [y|]; try (right; discriminate); [|left; reflexivity].
      destruct (VD x y) as [->|N]; [left; reflexivity|right; congruence].
    - destruct (list_eq_dec Z.eq_dec s s0) as [->|N]; [left; reflexivity|right; congruence].
    - destruct (N.eq_dec d d0) as [->|N]; [|right; congruence]. destruct (Z.eq_dec i i0) as [->|N]; [left; reflexivity|right; congruence].
    - destruct (VD v1 w1) as [->|N]; [|right; congruence]. destruct (VD v2 w2) as [->|N]; [left; reflexivity|right; congruence].
    - revert l0. induction l as [|x l IH]; intros [|y r]; try (right; discriminate); [left; reflexivity|].
      destruct (VD x y) as [->|N]; [|right; congruence]. destruct (IH r) as [E|N]; [left; injection E as ->; reflexivity|right; congruence]. }
  induction t as [| | | | | | | | | | | | | | |a IHa b IHb|a IHa|a IHa|a IHa]; intros v w; cbn [alike]; auto.
  - destruct v as [| |[|]| | | |], w as [| |[|]| | | |]; auto.
  - destruct v as [| |[|]| | | |], w as [| |[|]| | | |]; auto.
  - destruct v, w; auto. destruct (IHa v1 w1), (IHb v2 w2); tauto.
  - destruct v, w; auto. revert l0. induction l as [|x l IH]; intros [|y r]; [left; constructor|right; intros X; inversion X..|].
    destruct (IHa x y) as [|N]; [|right; intros X; inversion X; tauto]. destruct (IH r) as [|N]; [left; constructor; assumption|right; intros X; inversion X; tauto].
  - destruct v, w; auto. revert l0. induction l as [|x l IH]; intros [|y r]; [left; constructor|right; intros X; inversion X..|].
    destruct (IHa x y) as [|N]; [|right; intros X; inversion X; tauto]. destruct (IH r) as [|N]; [left; constructor; assumption|right; intros X; inversion X; tauto].
Qed.

Lemma seq_exact (ne : val -> val -> outcome bool) t l r :
  (Z.of_nat (length l) < 2 ^ 31)%Z -> Forall (has_type t) l -> Forall (has_type t) r ->
  (forall v w, has_type t v -> has_type t w -> exists b, ne v w = Ok b /\ (b = true <-> ~ alike t v w)) ->
  exists b, seq_eq ne l r = Ok b /\ (b = true <-> Forall2 (alike t) l r).
Proof.
  intros B Hl Hr HN. unfold seq_eq. destruct (Nat.eqb_spec (length l) (length r)) as [L|L].
  - apply loop_exact; [exact L|lia| |apply alike_dec]. clear B. revert r Hr L. induction Hl as [|v l Hv Hl IH]; intros r Hr L; destruct Hr; try discriminate; constructor; auto.
  - exists false. split; [reflexivity|]. split; [discriminate|]. intros X. elim L. clear -X. induction X; cbn; congruence.
Qed.

Definition eq_good (t : ty) : Prop := forall v w, has_type t v -> has_type t w ->
  (taken t Eq <> Nothing -> exists b, answer t Eq v w = Ok b /\ (b = true <-> alike t v w)) /\
  (taken t Ne <> Nothing -> exists b, answer t Ne v w = Ok b /\ (b = true <-> ~ alike t v w)).

Ltac leaf := intros v w Hv Hw; destruct v; try contradiction; destruct w; try contradiction; split; intros _; eexists; (split; [reflexivity|]).
Lemma equal_good t : eq_good t.
Proof.
  induction t as [| | | | | | | | | | | | | | |a IHa b IHb|a IHa|a IHa|a IHa];
    try (leaf; cbn [zop alike]; rewrite ?negb_true_iff, <- ?not_true_iff_false, Z.eqb_eq;
      [split; intros X; [f_equal; lia|injection X as ->; reflexivity]|split; intros X Y; apply X; [injection Y as ->; reflexivity|f_equal; lia] ]; fail).
  - leaf; cbn [zop]; rewrite ?negb_true_iff, <- ?not_true_iff_false, presence_eq; reflexivity.
  - leaf; cbn [zop]; rewrite ?negb_true_iff, <- ?not_true_iff_false, presence_eq; reflexivity.
  - leaf; cbn [zop]; rewrite ?negb_true_iff, <- ?not_true_iff_false, Z.eqb_eq, view_zero; cbn [alike]; split; congruence.
  - leaf; cbn [alike]; rewrite ?negb_true_iff, <- ?not_true_iff_false, andb_true_iff, N.eqb_eq, Z.eqb_eq;
      [split; [intros [-> ->]; reflexivity|intros X; injection X as -> ->; auto]|].
    split; intros X Y; apply X; [injection Y as -> ->; auto|destruct Y as [-> ->]; reflexivity].
  - intros v w Hv. contradiction.
  - intros v w Hv Hw. destruct v as [| | | | |v1 v2|]; try contradiction. destruct w as [| | | | |w1 w2|]; try contradiction.
    destruct Hv as [A1 A2], Hw as [B1 B2]. destruct (IHa v1 w1 A1 B1) as [Ia _], (IHb v2 w2 A2 B2) as [Ib _].
    assert (G : taken a Eq <> Nothing -> taken b Eq <> Nothing ->
      exists c, obind (answer a Eq v1 w1) (fun c => if c then answer b Eq v2 w2 else Ok false) = Ok c /\ (c = true <-> alike a v1 w1 /\ alike b v2 w2)).
    { intros T1 T2. destruct (Ia T1) as (p & Hp & Ep), (Ib T2) as (q & Hq & Eq'). rewrite Hp. cbn [obind]. destruct p.
      - exists q. split; [exact Hq|]. rewrite Eq'. tauto.
      - exists false. split; [reflexivity|]. split; [discriminate|]. intros [X _]. apply Ep in X. discriminate. }
    cbn [taken forallb answer alike].
    split; intros T; (destruct (taken a Eq), (taken b Eq); try (now elim T); destruct G as (c & Hc & Ec); try discriminate).
    + exists c. split; [exact Hc|exact Ec].
    + rewrite Hc. cbn [obind]. exists (negb c). split; [reflexivity|]. rewrite negb_true_iff, <- not_true_iff_false, Ec. reflexivity.
  - intros v w Hv Hw. destruct v as [| | | | | |l]; try contradiction. destruct w as [| | | | | |r]; try contradiction.
    destruct Hv as [A1 A2], Hw as [B1 B2]. cbn [taken answer alike]. split; intros T; [|now elim T].
    apply seq_exact; auto. intros x y Hx Hy. apply (IHa x y Hx Hy). destruct (taken a Ne); [now elim T|discriminate..].
  - intros v w Hv Hw. destruct v as [| | | | | |l]; try contradiction. destruct w as [| | | | | |r]; try contradiction.
    destruct Hv as [A1 A2], Hw as [B1 B2]. cbn [taken answer alike relational].
    assert (G : taken a Ne <> Nothing -> exists b, seq_eq (answer a Ne) l r = Ok b /\ (b = true <-> Forall2 (alike a) l r)).
    { intros T. apply seq_exact; auto. intros x y Hx Hy. apply (IHa x y Hx Hy). exact T. }
    split; intros T; (destruct G as (c & Hc & Ec); [destruct (taken a Ne); [now elim T|discriminate..]|]).
    + exists c. split; [exact Hc|exact Ec].
    + rewrite Hc. cbn [obind]. exists (negb c). split; [reflexivity|]. rewrite negb_true_iff, <- not_true_iff_false, Ec. reflexivity.
  - intros v w Hv Hw. destruct (IHa v w Hv Hw) as [E1 E2]. cbn [taken answer alike]. split; intros T.
    + apply E1. destruct (taken a Eq); [now elim T|discriminate..].
    + apply E2. destruct (taken a Ne); [now elim T|discriminate..].
Qed.
Lemma compiles_taken t o x y : compiles t o x y = true -> taken t o <> Nothing.
Proof. rewrite compiles_exact. intros H E. rewrite E in H. discriminate. Qed.
Theorem equal_exact t x y v w : has_type t v -> has_type t w ->
  (compiles t Eq x y = true -> exists b, answer t Eq v w = Ok b /\ (b = true <-> alike t v w)) /\
  (compiles t Ne x y = true -> exists b, answer t Ne v w = Ok b /\ (b = true <-> ~ alike t v w)).
Proof.
  intros Hv Hw. destruct (equal_good t v w Hv Hw) as [E1 E2]. split; intros C; apply compiles_taken in C; auto.
Qed.

(** Without any and function, alike is equal. *)
Lemma alike_eq t : boxed t = false -> forall v w, has_type t v -> has_type t w -> (alike t v w <-> v = w).
Proof.
  induction t as [| | | | | | | | | | | | | | |a IHa b IHb|a IHa|a IHa|a IHa]; intros B v w Hv Hw; try reflexivity; try discriminate.
  - cbn [boxed] in B. apply orb_false_iff in B as [Ba Bb]. destruct v as [| | | | |v1 v2|]; try contradiction. destruct w as [| | | | |w1 w2|]; try contradiction.
    destruct Hv as [A1 A2], Hw as [B1 B2]. cbn [alike]. rewrite (IHa Ba _ _ A1 B1), (IHb Bb _ _ A2 B2).
    split; [intros [-> ->]; reflexivity|intros X; injection X as -> ->; auto].
  - destruct v as [| | | | | |l]; try contradiction. destruct w as [| | | | | |r]; try contradiction. destruct Hv as [_ A], Hw as [_ A']. cbn [alike].
    revert r A'. induction A as [|x l Hx A IH]; intros r A'; destruct A' as [|y r Hy A']; [split; auto|split; [intros X; inversion X|discriminate]..|].
    specialize (IH r A'). specialize (IHa B x y Hx Hy). split; intros X.
    + inversion X; subst. apply IHa in H2. apply IH in H4. congruence.
    + injection X as -> ->. constructor; [apply IHa; reflexivity|apply IH; reflexivity].
  - destruct v as [| | | | | |l]; try contradiction. destruct w as [| | | | | |r]; try contradiction. destruct Hv as [_ A], Hw as [_ A']. cbn [alike].
    revert r A'. induction A as [|x l Hx A IH]; intros r A'; destruct A' as [|y r Hy A']; [split; auto|split; [intros X; inversion X|discriminate]..|].
    specialize (IH r A'). specialize (IHa B x y Hx Hy). split; intros X.
    + inversion X; subst. apply IHa in H2. apply IH in H4. congruence.
    + injection X as -> ->. constructor; [apply IHa; reflexivity|apply IH; reflexivity].
  - cbn [alike]. apply IHa; assumption.
Qed.
Theorem equal_unboxed t x y v w : boxed t = false -> has_type t v -> has_type t w ->
  (compiles t Eq x y = true -> exists b, answer t Eq v w = Ok b /\ (b = true <-> v = w)) /\
  (compiles t Ne x y = true -> exists b, answer t Ne v w = Ok b /\ (b = true <-> v <> w)).
Proof.
  intros B Hv Hw. destruct (equal_exact t x y v w Hv Hw) as [E1 E2]. pose proof (alike_eq t B v w Hv Hw) as A.
  split; intros C; [destruct (E1 C) as (b & Hb & Eb)|destruct (E2 C) as (b & Hb & Eb)]; exists b; (split; [exact Hb|]); rewrite Eb, A; reflexivity.
Qed.

(** The other operators agree with < and ==. *)
Definition ord_good (t : ty) : Prop := forall v w, has_type t v -> has_type t w ->
  (taken t Lt <> Nothing -> exists b, answer t Lt v w = Ok b) /\
  (taken t Gt <> Nothing -> taken t Lt <> Nothing /\ answer t Gt v w = answer t Lt w v) /\
  (taken t Ge <> Nothing -> taken t Lt <> Nothing /\ exists b, answer t Lt v w = Ok b /\ answer t Ge v w = Ok (negb b)) /\
  (taken t Le <> Nothing -> taken t Lt <> Nothing /\ taken t Eq <> Nothing /\
     exists b c, answer t Lt v w = Ok b /\ answer t Eq v w = Ok c /\ answer t Le v w = Ok (b || c)).
Lemma order_good t : ord_good t.
Proof.
  induction t as [| | | | | | | | | | | | | | |a IHa b IHb|a IHa|a IHa|a IHa]; intros v w Hv Hw.
  15: contradiction.
  1-8,9: destruct v; try contradiction; destruct w; try contradiction; cbn [answer]; (split; [intros _; eexists; reflexivity|]);
    (split; [intros _; split; [discriminate|]; rewrite zop_order; try rewrite (view_anti s s0); f_equal; cbn; lia|]);
    (split; [intros _; split; [discriminate|]; eexists; split; [reflexivity|]; rewrite (zop_order Ge); reflexivity|]);
    intros _; split; [discriminate|]; split; [discriminate|]; do 2 eexists; split; [reflexivity|]; split; [reflexivity|]; rewrite (zop_order Le); reflexivity.
  1-5: (split; [|split; [|split] ]; intros T; now elim T).
  - destruct v as [| | | | |v1 v2|]; try contradiction. destruct w as [| | | | |w1 w2|]; try contradiction.
    destruct Hv as [A1 A2], Hw as [B1 B2]. destruct (IHa v1 w1 A1 B1) as [La _], (IHb v2 w2 A2 B2) as [Lb _].
    destruct (equal_good a v1 w1 A1 B1) as [Ea _], (equal_good b v2 w2 A2 B2) as [Eb _].
    assert (G : taken a Lt <> Nothing -> taken b Lt <> Nothing ->
      exists c, obind (answer a Lt v1 w1) (fun c => if c then answer a Lt v1 w1 else answer b Lt v2 w2) = Ok c).
    { intros T1 T2. destruct (La T1) as (p & Hp), (Lb T2) as (q & Hq). rewrite Hp. cbn [obind]. destruct p; eexists; [reflexivity|exact Hq]. }
    assert (K : taken a Eq <> Nothing -> taken b Eq <> Nothing ->
      exists c, obind (answer a Eq v1 w1) (fun c => if c then answer b Eq v2 w2 else Ok false) = Ok c).
    { intros T1 T2. destruct (Ea T1) as (p & Hp & _), (Eb T2) as (q & Hq & _). rewrite Hp. cbn [obind]. destruct p; eexists; [exact Hq|reflexivity]. }
    clear La Lb Ea Eb IHa IHb. cbn [taken forallb answer]. split; [|split; [|split]]; intros T.
    + destruct (taken a Lt), (taken b Lt); try (now elim T). apply G; discriminate.
    + split; [exact T|reflexivity].
    + split; [exact T|]. destruct (taken a Lt), (taken b Lt); try (now elim T). destruct G as [c Hc]; try discriminate.
      exists c. split; [exact Hc|]. rewrite Hc. reflexivity.
    + destruct (taken a Lt), (taken b Lt); try (now elim T). destruct (taken a Eq), (taken b Eq); try (now elim T).
      destruct G as [c Hc]; try discriminate. destruct K as [d Hd]; try discriminate.
      split; [discriminate|]. split; [discriminate|]. exists c, d. split; [exact Hc|]. split; [exact Hd|]. rewrite Hc. cbn [obind]. destruct c; [reflexivity|exact Hd].
  - split; [|split; [|split]]; intros T; now elim T.
  - split; [|split; [|split]]; intros T; now elim T.
  - destruct (IHa v w Hv Hw) as (E1 & E2 & E3 & E4). cbn [taken answer]. split; [|split; [|split]]; intros T.
    + apply E1. destruct (taken a Lt); [now elim T|discriminate..].
    + destruct E2 as [T' E2]; [destruct (taken a Gt); [now elim T|discriminate..]|]. split; [|exact E2].
      assert (S : taken a Gt = taken a Lt) by (clear; induction a; cbn [taken]; auto; rewrite IHa; reflexivity). rewrite <- S. exact T.
    + destruct E3 as [T' E3]; [destruct (taken a Ge); [now elim T|discriminate..]|]. split; [|exact E3].
      assert (S : taken a Ge = taken a Lt) by (clear; induction a; cbn [taken]; auto; rewrite IHa; reflexivity). rewrite <- S. exact T.
    + destruct E4 as (T' & T'' & E4); [destruct (taken a Le); [now elim T|discriminate..]|]. 
      assert (S : match taken a Le with LeftMutable | Everything => True | _ => False end ->
        match taken a Lt with LeftMutable | Everything => True | _ => False end /\ match taken a Eq with LeftMutable | Everything => True | _ => False end).
      { clear. induction a as [| | | | | | | | | | | | | | |a IHa b IHb|a IHa|a IHa|a IHa]; cbn [taken relational forallb]; auto; try contradiction.
        - destruct (taken a Lt), (taken b Lt); cbn; try contradiction. destruct (taken a Eq), (taken b Eq); cbn; try contradiction. auto.
        - destruct (taken a Le), (taken a Lt), (taken a Eq); auto; try contradiction; intros _; apply IHa; exact I. }
      split; [|split; [|exact E4]].
      * destruct (taken a Le); try (now elim T); destruct S as [S1 S2]; try exact I; destruct (taken a Lt); try contradiction; discriminate.
      * destruct (taken a Le); try (now elim T); destruct S as [S1 S2]; try exact I; destruct (taken a Eq); try contradiction; discriminate.
Qed.
Theorem order_exact t v w : has_type t v -> has_type t w ->
  (forall x y, compiles t Lt x y = true -> exists b, answer t Lt v w = Ok b) /\
  (forall x y, compiles t Gt x y = true -> answer t Gt v w = answer t Lt w v) /\
  (forall x y, compiles t Ge x y = true -> exists b, answer t Lt v w = Ok b /\ answer t Ge v w = Ok (negb b)) /\
  (forall x y, compiles t Le x y = true -> exists b c, answer t Lt v w = Ok b /\ answer t Eq v w = Ok c /\ answer t Le v w = Ok (b || c)).
Proof.
  intros Hv Hw. destruct (order_good t v w Hv Hw) as (E1 & E2 & E3 & E4).
  split; [|split; [|split] ]; intros x y C; apply compiles_taken in C.
  - exact (E1 C).
  - exact (proj2 (E2 C)).
  - exact (proj2 (E3 C)).
  - exact (proj2 (proj2 (E4 C))).
Qed.

(** ** The int index *)
Lemma loop_overflow (ne : val -> val -> outcome bool) l : forall i, (0 <= i < 2 ^ 31)%Z -> (2 ^ 31 <= i + Z.of_nat (length l))%Z ->
  Forall (fun v => ne v v = Ok false) l -> seq_loop ne i l l = UB.
Proof.
  induction l as [|v l IH]; intros i Hi B F; [cbn in B; lia|]. inversion F as [|? ? Hv F']; subst. cbn [seq_loop]. rewrite Hv. cbn [obind].
  destruct (Z.ltb_spec (i + 1) (2 ^ 31)) as [L|L]; [|reflexivity]. apply IH; [lia|cbn [length] in B; lia|exact F'].
Qed.
Theorem overflow t l x y : compiles (TVec t) Eq x y = true -> Forall (has_type t) l -> (2 ^ 31 <= Z.of_nat (length l))%Z ->
  answer (TVec t) Eq (VSeq l) (VSeq l) = UB /\ answer (TList t) Eq (VSeq l) (VSeq l) = UB.
Proof.
  intros C F B. assert (E : seq_eq (answer t Ne) l l = UB); [|cbn [answer]; rewrite E; auto].
  unfold seq_eq. rewrite Nat.eqb_refl. apply loop_overflow; [lia|exact B|].
  apply compiles_taken in C. cbn [taken] in C.
  assert (T : taken t Ne <> Nothing) by (destruct (taken t Ne); [now elim C|discriminate..]).
  assert (R : forall t v, has_type t v -> alike t v v).
  { clear. induction t as [| | | | | | | | | | | | | | |a IHa b IHb|a IHa|a IHa|a IHa]; intros v H; try reflexivity.
    - destruct v as [| |[|]| | | |]; try contradiction; exact I.
    - destruct v as [| |[|]| | | |]; try contradiction; exact I.
    - destruct v as [| | | | |v1 v2|]; try contradiction. destruct H. split; auto.
    - destruct v as [| | | | | |l]; try contradiction. destruct H as [_ H]. cbn [alike]. induction H; constructor; auto.
    - destruct v as [| | | | | |l]; try contradiction. destruct H as [_ H]. cbn [alike]. induction H; constructor; auto.
    - cbn [alike]. apply IHa. exact H. }
  clear B C. induction F as [|v l Hv F IH]; constructor; [|exact IH].
  destruct (equal_good t v v Hv Hv) as [_ E]. destruct (E T) as (b & Hb & Eb). rewrite Hb. f_equal.
  destruct b; [|reflexivity]. elim (proj1 Eb eq_refl). apply R. exact Hv.
Qed.
Lemma overflow_demo : exists l, Forall (has_type TInt) l /\ (2 ^ 31 <= Z.of_nat (length l))%Z /\ compiles (TVec TInt) Eq constant constant = true.
Proof.
  exists (repeat (VInt 0) (Z.to_nat (2 ^ 31))). split; [|split; [|reflexivity] ].
  - apply Forall_forall. intros v H. apply repeat_spec in H. subst v. exact I.
  - rewrite repeat_length, Z2Nat.id; [apply Z.le_refl|apply Z.pow_nonneg; lia].
Qed.

(** ** nullptr *)
Lemma null_exact t o v : has_type t v ->
  (compiles_null t o = true <-> (t = TPtr \/ t = TUniq \/ t = TShared) /\ (o = Eq \/ o = Ne)) /\
  (compiles_null t o = true -> exists b, answer_null o v = Ok b /\ (b = true <-> (o = Eq <-> v = VAdr 0%N))).
Proof.
  intros H. split.
  - destruct t, o; cbn; split; try discriminate; try tauto; intros [[X|[X|X] ] [Y|Y] ]; discriminate.
  - intros C. destruct t; try discriminate; destruct v as [|n| | | | |]; try contradiction; destruct o; try discriminate; cbn [answer_null];
      (eexists; split; [reflexivity|]); rewrite ?negb_true_iff, ?N.eqb_eq, ?N.eqb_neq;
      (split; [intros X; split; intros Y; try discriminate; try congruence; injection Y as Y; congruence|
               intros X; try (destruct X as [X _]; specialize (X eq_refl); congruence); intros ->; destruct X as [_ X]; specialize (X eq_refl); discriminate]).
Qed.

(** ** Differences *)
Lemma standard_refuted :
  (standard TShared Eq = true /\ compiles TShared Eq constant constant = false /\ compiles TShared Eq temporary variable = false /\ compiles TShared Eq variable variable = true) /\
  (forall t, compiles (TVec t) Ne variable variable = false /\ compiles (TVec t) Lt variable variable = false) /\ standard (TVec TInt) Ne = true /\
  (standard (TVec (TVec TInt)) Eq = true /\ forall t x y, compiles (TVec (TVec t)) Eq x y = false) /\
  (standard (TList TInt) Eq = true /\ compiles (TList TInt) Eq constant variable = false) /\
  (standard TDeqIt Lt = true /\ forall x y, compiles TDeqIt Lt x y = false).
Proof.
  split; [repeat split|]. split; [split; reflexivity|]. split; [reflexivity|]. split; [|split; [split; reflexivity|split; [reflexivity|intros [] []; reflexivity] ] ].
  split; [reflexivity|]. intros t x y. rewrite compiles_exact. reflexivity.
Qed.
Lemma any_refuted : exists t v w, has_type t v /\ has_type t w /\ v <> w /\ compiles t Eq constant constant = true /\ standard t Eq = false /\ answer t Eq v w = Ok true.
Proof.
  exists (TVec TAny), (VSeq [VBox (Some (VInt 1))]), (VSeq [VBox (Some (VInt 2))]).
  split; [split; [reflexivity|repeat constructor]|]. split; [split; [reflexivity|repeat constructor]|]. split; [discriminate|]. repeat split.
Qed.
Lemma key_refuted : standard TShared Lt = true /\ can_be_key TShared = false /\ can_be_key TUniq = true /\
  standard (TVec TInt) Lt = true /\ can_be_key (TVec TInt) = false /\
  standard (TPair TInt TView) Lt = true /\ compiles (TPair TInt TView) Lt constant constant = true /\ can_be_key (TPair TInt TView) = false.
Proof. repeat split. Qed.
