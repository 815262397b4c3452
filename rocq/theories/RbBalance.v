(** The colour rules on labelled trees: erase keeps them, insertion at the end keeps them. *)
From stdpp Require Import gmap list.
From Coq Require Import Lia ZifyBool ZifyNat ZifyN.
From Verif Require Import RbModel RbPure RbErase RbUnlink RbInsert RbAdd RbDel.

Section bal.
Context {A : Type}.
Notation tr := (tr A).
Notation ctx := (list (fr A)).
Implicit Types (t : tr) (k : ctx).

Inductive rbt : tr -> nat -> Prop :=
  | rbE : rbt E 0
  | rbR l x a r n : rbt l n -> rbt r n -> red l = false -> red r = false -> rbt (T Red l x a r) n
  | rbB l x a r n : rbt l n -> rbt r n -> rbt (T Black l x a r) (S n).
Definition good t : Prop := exists n, rbt t n.

Definition sib (f : fr A) : tr := match f with FL _ _ _ r => r | FR _ l _ _ => l end.
Definition up (c : color) (n : nat) : nat := match c with Red => n | Black => S n end.
Definition nored k : Prop := match k with f :: _ => fcol f = Black | [] => True end.
Fixpoint okc k n : Prop :=
  match k with
  | [] => True
  | f :: k => rbt (sib f) n /\ (fcol f = Red -> red (sib f) = false /\ nored k) /\ okc k (up (fcol f) n)
  end.

Lemma rbt_fill t f n : rbt t n -> rbt (sib f) n -> (fcol f = Red -> red (sib f) = false /\ red t = false) ->
  rbt (fill t f) (up (fcol f) n).
Proof. destruct f as [[] ? ? ?|[] ? ? ?]; cbn; intros Ht Hs Hr; try destruct (Hr eq_refl); by constructor. Qed.
Lemma red_fill t f : red (fill t f) = match fcol f with Red => true | Black => false end.
Proof. by destruct f as [[]|[]]. Qed.
Lemma plug_good k : forall t n, rbt t n -> okc k n -> (red t = true -> nored k) -> good (plug t k).
Proof.
  induction k as [|f k IH]; intros t n Ht Hk Hr; [by exists n|]. cbn [okc plug] in *. destruct Hk as (Hs & Hc & Hk).
  apply (IH _ (up (fcol f) n)); [|done|].
  - apply rbt_fill; [done|done|]. intros X. split; [by apply Hc|]. destruct (red t); [|done]. cbn in Hr. rewrite Hr in X; done.
  - rewrite red_fill. intros X. apply Hc. by destruct (fcol f).
Qed.
Lemma good_plug k : forall t, good (plug t k) -> exists n, rbt t n /\ okc k n /\ (red t = true -> nored k).
Proof.
  induction k as [|f k IH]; intros t G.
  - destruct G as [n G]. exists n. done.
  - cbn [plug] in G. apply IH in G as (n & G & Hk & Hr). rewrite red_fill in Hr. cbn [okc nored].
    destruct f as [c x a r|c l x a]; cbn [fill fcol sib] in *; inversion G; subst; cbn [up] in *;
      eexists; (split; [eassumption|]); repeat split; try done; try (intros; congruence); auto.
Qed.

Ltac rb_inv := repeat match goal with
  | G : rbt E _ |- _ => inversion G; clear G; subst
  | G : rbt (T _ _ _ _ _) _ |- _ => inversion G; clear G; subst
  end.
Lemma rbt_black t n : rbt t n -> red t = false -> n <> 0 -> exists l x a r m, t = T Black l x a r /\ n = S m /\ rbt l m /\ rbt r m.
Proof. intros G. destruct G; try done. intros _ _. eauto 10. Qed.
Lemma paint_red t n : rbt t n -> red t = true -> rbt (paint Black t) (S n).
Proof. intros G. destruct G; try done. intros _. by constructor. Qed.
Lemma red_paint_black t : red (paint Black t) = false. Proof. by destruct t. Qed.

Lemma borrow_l_rb cp x p ap bl b ab br n : rbt x n -> rbt bl n -> rbt br n -> red bl || red br = true ->
  rbt (borrow_l cp x p ap bl b ab br) (up cp (S n)) /\ red (borrow_l cp x p ap bl b ab br) = match cp with Red => true | Black => false end.
Proof.
  intros Hx Hl Hr Hc. unfold borrow_l. destruct (red br) eqn:Er.
  - split; [|by destruct cp]. pose proof (paint_red _ _ Hr Er). destruct cp; constructor; try done; try (by constructor). apply red_paint_black.
  - destruct Hl as [|l y c r n Hl Hl' R1 R2|]; [done| |done]. split; [|by destruct cp].
    destruct cp; constructor; try done; by constructor.
Qed.
Lemma borrow_r_rb cp x p ap bl b ab br n : rbt x n -> rbt bl n -> rbt br n -> red bl || red br = true ->
  rbt (borrow_r cp bl b ab br p ap x) (up cp (S n)) /\ red (borrow_r cp bl b ab br p ap x) = match cp with Red => true | Black => false end.
Proof.
  intros Hx Hl Hr Hc. unfold borrow_r. destruct (red bl) eqn:Er.
  - split; [|by destruct cp]. pose proof (paint_red _ _ Hl Er). destruct cp; constructor; try done; try (by constructor). apply red_paint_black.
  - destruct Hr as [|l y c r n Hl' Hr R1 R2|]; [done| |done]. split; [|by destruct cp].
    destruct cp; constructor; try done; by constructor.
Qed.

(** 482-547 *)
Lemma efix_good k : forall x n,
  (if red x then rbt (paint Black x) (S n) else rbt x n) -> okc k (S n) -> exists t, efix x k = Some t /\ good t.
Proof.
  induction k as [|f k IH]; intros x n Hx Hk.
  - cbn [efix]. destruct (red x); eexists; (split; [done|]); eexists; exact Hx.
  - destruct (red x) eqn:Er.
    { cbn [efix]. rewrite Er. eexists. split; [done|]. apply (plug_good (f :: k) _ (S n)); [done|done|]. by rewrite red_paint_black. }
    cbn [okc] in Hk. destruct Hk as (Hs & Hc & Hk).
    assert (forall cp u, rbt u (up cp (S n)) -> red u = (match cp with Red => true | Black => false end) -> fcol f = cp -> good (plug u k)) as Pl.
    { intros cp u Hu Hru Ef. apply (plug_good k u (up cp (S n))); [done|by rewrite <- Ef|]. rewrite Hru. intros X. apply Hc. rewrite Ef. by destruct cp. }
    destruct f as [cp p ap sb|cp sb p ap]; cbn [efix sib fcol] in *; rewrite Er.
    + inversion Hs as [|bl b ab br m Hbl Hbr Rl Rr|bl b ab br m Hbl Hbr]; subst.
      * assert (cp = Black) as -> by (destruct cp; [destruct (Hc eq_refl); done|done]).
        destruct (rbt_black _ _ Hbl Rl ltac:(lia)) as (nl & y & ay & nr & m & -> & Em & Hnl & Hnr). injection Em as <-.
        destruct (red nl || red nr) eqn:Hr.
        -- eexists. split; [done|]. apply (Pl Black); try done. constructor; [|done]. by apply (borrow_l_rb Red).
        -- apply orb_false_iff in Hr as [R1 R2]. eexists. split; [done|]. apply (Pl Black); try done. constructor; [|done]. constructor; [done|]. by constructor.
      * destruct (red bl || red br) eqn:Hr.
        -- eexists. split; [done|]. destruct (borrow_l_rb cp x p ap bl b ab br n Hx Hbl Hbr Hr) as [X1 X2]. by apply (Pl cp).
        -- apply orb_false_iff in Hr as [R1 R2]. apply (IH _ (match cp with Red => n | Black => S n end)).
           ++ destruct cp; cbn [red paint]; (constructor; [done|by constructor]).
           ++ destruct cp; done.
    + inversion Hs as [|bl b ab br m Hbl Hbr Rl Rr|bl b ab br m Hbl Hbr]; subst.
      * assert (cp = Black) as -> by (destruct cp; [destruct (Hc eq_refl); done|done]).
        destruct (rbt_black _ _ Hbr Rr ltac:(lia)) as (nl & y & ay & nr & m & -> & Em & Hnl & Hnr). injection Em as <-.
        destruct (red nl || red nr) eqn:Hr.
        -- eexists. split; [done|]. apply (Pl Black); try done. constructor; [done|]. by apply (borrow_r_rb Red).
        -- apply orb_false_iff in Hr as [R1 R2]. eexists. split; [done|]. apply (Pl Black); try done. constructor; [done|]. constructor; [|done]. by constructor.
      * destruct (red bl || red br) eqn:Hr.
        -- eexists. split; [done|]. destruct (borrow_r_rb cp x p ap bl b ab br n Hx Hbl Hbr Hr) as [X1 X2]. by apply (Pl cp).
        -- apply orb_false_iff in Hr as [R1 R2]. apply (IH _ (match cp with Red => n | Black => S n end)).
           ++ destruct cp; cbn [red paint]; (constructor; [by constructor|done]).
           ++ destruct cp; done.
Qed.

(** 427-547 *)
Lemma remove_good c l z az r k : good (plug (T c l z az r) k) -> exists t, remove (T c l z az r) k = Some t /\ good t.
Proof.
  assert (forall c x k n, rbt x n -> okc k (up c n) -> (c = Red -> red x = false) ->
    exists t, match c with Red => Some (plug x k) | Black => efix x k end = Some t /\ good t) as X.
  { intros [] x k0 n Hx Hk Hr.
    - eexists. split; [done|]. apply (plug_good k0 x n); [done|done|]. by rewrite Hr.
    - apply (efix_good k0 x n); [|done]. destruct (red x) eqn:E; [by apply paint_red|done]. }
  intros G. destruct (good_plug k _ G) as (n & Ht & Hk & Hr). unfold remove.
  assert (exists m, rbt l m /\ rbt r m /\ n = up c m /\ (c = Red -> red l = false /\ red r = false)) as (m & Hl & Hrr & -> & Hlr).
  { inversion Ht; subst; eexists; repeat split; try eassumption; done. }
  destruct l as [|cl ll xl al lr].
  - apply (X c r k m); [done|done|]. intros Y. apply (Hlr Y).
  - destruct r as [|cr rl xr ar rr].
    + apply (X c _ k m); [done|done|]. intros Y. apply (Hlr Y).
    + set (l := T cl ll xl al lr) in *. set (r := T cr rl xr ar rr) in *.
      pose proof (unmin_plug r []) as U1. destruct (unmin_shape r [] ltac:(done)) as (cy & y & ay & ry & U4).
      destruct (unmin r []) as [u kr]. cbn [fst snd] in *. subst u. cbn [plug] in U1.
      assert (good (plug (T cy E y ay ry) (kr ++ FR c l y ay :: k))) as G'.
      { rewrite plug_app, U1. cbn [plug fill]. apply (plug_good k _ (up c m)); [|done|].
        - inversion Ht; subst; by constructor.
        - intros Y. apply Hr. by destruct c. }
      destruct (good_plug _ _ G') as (n & Hy & Hk' & Hr').
      inversion Hy; subst; [apply (X Red ry _ n)|apply (X Black ry _ n0)]; done.
Qed.

(** 386-425 with the hole at the right end *)
Definition rightmost k : Prop := Forall (fun f => match f with FR _ _ _ _ => True | FL _ _ _ _ => False end) k.
Lemma fixup_good k : forall t n, rightmost k -> low_black k -> rbt t n -> red t = true -> okc k n -> good (paint Black (fixup t k)).
Proof.
  induction k as [|f|f f2 k IH] using len2_ind; intros t n R LB Ht Hr Hk.
  - exists (S n). by apply paint_red.
  - cbn [okc] in Hk. destruct Hk as (Hs & _ & _). unfold low_black in LB. cbn in LB. destruct f as [|c l x a]; [by inversion R|].
    cbn in LB. subst c. cbn. exists (S n). by constructor.
  - inversion R as [|? ? Rf R2]; subst. inversion R2 as [|? ? Rf2 R3]; subst. destruct f as [|c l x a]; [done|]. destruct f2 as [|c2 u g ag]; [done|].
    cbn [okc sib fcol] in Hk. destruct Hk as (Hs & Hc & Hu & Hc2 & Hk).
    cbn [fixup fcol]. destruct c; cbn [up] in *.
    + destruct (Hc eq_refl) as [Rl Hb]. cbn in Hb. subst c2. cbn [up] in Hk. destruct (red u) eqn:Eu.
      * apply (IH _ (S n)); [done|by apply low_black_tl, low_black_tl in LB| |done|done].
        constructor; try done; try apply red_paint_black; [by apply paint_red|]. cbn [fill paint]. by constructor.
      * cbn [fill]. assert (good (plug (T Black (T Red u g ag l) x a t) k)) as [m G].
        { apply (plug_good k _ (S n)); [|done|done]. constructor; [by constructor|done]. }
        destruct (plug (T Black (T Red u g ag l) x a t) k); [exists 0; constructor|]. cbn [paint].
        inversion G; subst; eexists; by constructor.
    + assert (good (plug t (FR Black l x a :: FR c2 u g ag :: k))) as [m G].
      { apply (plug_good _ _ n); [done| |done]. cbn [okc sib fcol up]. done. }
      cbn [plug fill] in *. destruct (plug (T c2 u g ag (T Black l x a t)) k); [exists 0; constructor|]. cbn [paint].
      inversion G; subst; eexists; by constructor.
Qed.
Lemma descend_right (lt : A -> A -> bool) v t : forall k, rightmost k -> Forall (fun p => lt v (snd p) = false) (elems t) ->
  rightmost (descend lt v t k).
Proof.
  induction t as [|c l IHl x a r IHr]; intros k R F; [done|]. cbn [descend elems] in *. apply Forall_app in F as [F1 F2].
  apply Forall_cons in F2 as [F2 F3]. cbn in F2. rewrite F2. apply IHr; [|done]. by constructor.
Qed.
Lemma insert_good (lt : A -> A -> bool) x v t : good t -> red t = false -> Forall (fun p => lt v (snd p) = false) (elems t) ->
  good (insert lt x v t).
Proof.
  intros G Hr F. unfold insert. change (good (plug t [])) in G. rewrite <- (plug_descend lt v t []) in G.
  destruct (good_plug _ _ G) as (n & HE & Hk & _). inversion HE; subst.
  apply (fixup_good _ _ 0); try done.
  - apply descend_right; [by constructor|done].
  - apply (low_black_red E). rewrite plug_descend. done.
  - by repeat constructor.
Qed.

Fixpoint ht t : nat := match t with E => 0 | T _ l _ _ r => S (Nat.max (ht l) (ht r)) end.
Lemma rbt_size t n : rbt t n -> 2 ^ n <= S (length (elems t)).
Proof.
  induction 1 as [|l x a r n _ IH1 _ IH2 _ _|l x a r n _ IH1 _ IH2]; cbn [elems]; rewrite ?app_length; cbn [length];
    [done|lia|]. rewrite Nat.pow_succ_r'. lia.
Qed.
Lemma rbt_ht t n : rbt t n -> ht t <= 2 * n + (if red t then 1 else 0).
Proof.
  induction 1 as [|l x a r n _ IH1 _ IH2 R1 R2|l x a r n _ IH1 _ IH2]; cbn [ht red]; [done| |].
  - rewrite R1, R2 in *. lia.
  - destruct (red l), (red r); lia.
Qed.
Lemma good_ht t : good t -> red t = false -> ht t <= 2 * Nat.log2 (S (length (elems t))).
Proof.
  intros [n G] R. pose proof (rbt_size _ _ G) as X. pose proof (rbt_ht _ _ G) as Y. rewrite R in Y.
  apply Nat.log2_le_pow2 in X; lia.
Qed.
End bal.
