(** Labelled trees with a hole and the exact effect of the rebalancing loops of rb_tree.hpp on them. *)
From stdpp Require Import list.
From Coq Require Import Lia ZifyBool ZifyNat ZifyN.
From Verif Require Import RbModel.

Ltac lists := cbn [app]; repeat (rewrite <- app_assoc; cbn [app]); done.

Section pure.
Context {A : Type}.

Inductive tr := E | T (c : color) (l : tr) (x : loc) (a : A) (r : tr).
(** the node above the hole: the hole is its left, its right child *)
Inductive fr := FL (c : color) (x : loc) (a : A) (r : tr) | FR (c : color) (l : tr) (x : loc) (a : A).
Notation ctx := (list fr).

Definition fill (t : tr) (f : fr) : tr := match f with FL c x a r => T c t x a r | FR c l x a => T c l x a t end.
Fixpoint plug (t : tr) (k : ctx) : tr := match k with [] => t | f :: k => plug (fill t f) k end.

Fixpoint elems (t : tr) : list (loc * A) := match t with E => [] | T _ l x a r => elems l ++ (x, a) :: elems r end.
Fixpoint before (k : ctx) : list (loc * A) :=
  match k with [] => [] | FL _ _ _ _ :: k => before k | FR _ l x a :: k => before k ++ elems l ++ [(x, a)] end.
Fixpoint after (k : ctx) : list (loc * A) :=
  match k with [] => [] | FL _ x a r :: k => (x, a) :: elems r ++ after k | FR _ _ _ _ :: k => after k end.

Lemma elems_plug t k : elems (plug t k) = before k ++ elems t ++ after k.
Proof.
  revert t. induction k as [|[c x a r|c l x a] k IH]; intros t; cbn [plug fill before after elems].
  - by rewrite app_nil_r.
  - rewrite IH. cbn [elems]. by rewrite <- !app_assoc.
  - rewrite IH. cbn [elems]. by rewrite <- !app_assoc.
Qed.
Lemma plug_app t k k' : plug t (k ++ k') = plug (plug t k) k'.
Proof. revert t. induction k as [|f k IH]; intros t; cbn; auto. Qed.
Lemma before_app k k' : before (k ++ k') = before k' ++ before k.
Proof. induction k as [|[] k IH]; cbn; rewrite ?app_nil_r, ?IH, <- ?app_assoc; auto. Qed.
Lemma after_app k k' : after (k ++ k') = after k ++ after k'.
Proof. induction k as [|[] k IH]; cbn; rewrite ?IH, <- ?app_assoc; auto. Qed.

(** occurrences of an address *)
Definition bit (x l : loc) : nat := if decide (x = l) then 1 else 0.
Fixpoint cnt (t : tr) (l : loc) : nat := match t with E => 0 | T _ a x _ b => cnt a l + bit x l + cnt b l end.
Fixpoint ccnt (k : ctx) (l : loc) : nat :=
  match k with
  | [] => 0
  | FL _ x _ r :: k => bit x l + cnt r l + ccnt k l
  | FR _ t x _ :: k => bit x l + cnt t l + ccnt k l
  end.
Lemma bit_same x : bit x x = 1. Proof. unfold bit. by destruct decide. Qed.
Lemma bit_ne x l : x <> l -> bit x l = 0. Proof. unfold bit. by destruct decide. Qed.
Lemma bit_pos x l : 0 < bit x l -> x = l. Proof. unfold bit. destruct decide; [done|lia]. Qed.
Lemma cnt_plug t k l : cnt (plug t k) l = cnt t l + ccnt k l.
Proof. revert t. induction k as [|[] k IH]; intros t; cbn [plug fill ccnt]; [lia| |]; rewrite IH; cbn [cnt]; lia. Qed.
Lemma ccnt_app k k' l : ccnt (k ++ k') l = ccnt k l + ccnt k' l.
Proof. induction k as [|[] k IH]; cbn [app ccnt]; [done| |]; rewrite IH; lia. Qed.
Lemma cnt_elems t l : 0 < cnt t l <-> exists a, (l, a) ∈ elems t.
Proof.
  induction t as [|c t1 IH1 x a t2 IH2]; cbn [cnt elems].
  - split; [lia|]. intros [a Ha]. by apply elem_of_nil in Ha.
  - split.
    + intros Hc. destruct (decide (0 < cnt t1 l)) as [H1|H1].
      * apply IH1 in H1 as [b Hb]. exists b. rewrite elem_of_app. by left.
      * destruct (decide (x = l)) as [->|Hx]; [exists a; rewrite elem_of_app, elem_of_cons; auto|].
        rewrite (bit_ne _ _ Hx) in Hc. destruct IH2 as [IH2 _]. destruct IH2 as [b Hb]; [lia|].
        exists b. rewrite elem_of_app, elem_of_cons. auto.
    + intros [b Hb]. rewrite elem_of_app, elem_of_cons in Hb. destruct Hb as [Hb|[Hb|Hb]].
      * assert (0 < cnt t1 l) by (apply IH1; eauto). lia.
      * injection Hb as -> ->. rewrite bit_same. lia.
      * assert (0 < cnt t2 l) by (apply IH2; eauto). lia.
Qed.
Lemma nodup_elems t : (forall l, cnt t l <= 1) -> NoDup (elems t).*1.
Proof.
  induction t as [|c t1 IH1 x a t2 IH2]; cbn [cnt elems]; intros Hc; [constructor|].
  rewrite fmap_app, fmap_cons, NoDup_app. cbn [fst]. split; [apply IH1; intros l; specialize (Hc l); lia|].
  split.
  - intros l Hl. apply elem_of_list_fmap in Hl as [[l' b] [Hll Hb]]. cbn [fst] in Hll. subst l'.
    assert (0 < cnt t1 l) as H1 by (apply cnt_elems; eauto).
    rewrite elem_of_cons. intros [->|Hn].
    + specialize (Hc x). rewrite bit_same in Hc. lia.
    + apply elem_of_list_fmap in Hn as [[l' b'] [Hll Hb']]. cbn [fst] in Hll. subst l'.
      assert (0 < cnt t2 l) by (apply cnt_elems; eauto). specialize (Hc l). lia.
  - constructor; [|apply IH2; intros l; specialize (Hc l); lia].
    intros Hn. apply elem_of_list_fmap in Hn as [[l' b'] [Hll Hb']]. cbn [fst] in Hll. subst l'.
    assert (0 < cnt t2 x) by (apply cnt_elems; eauto). specialize (Hc x). rewrite bit_same in Hc. lia.
Qed.

Definition id (t : tr) : option loc := match t with E => None | T _ _ x _ _ => Some x end.
Definition red (t : tr) : bool := match t with T Red _ _ _ _ => true | _ => false end.
Definition paint (c : color) (t : tr) : tr := match t with E => E | T _ l x a r => T c l x a r end.
Definition fcol (f : fr) : color := match f with FL c _ _ _ => c | FR c _ _ _ => c end.
Definition floc (f : fr) : loc := match f with FL _ x _ _ => x | FR _ _ x _ => x end.
Lemma elems_paint c t : elems (paint c t) = elems t. Proof. by destruct t. Qed.
Lemma cnt_paint c t l : cnt (paint c t) l = cnt t l. Proof. by destruct t. Qed.
Lemma id_paint c t : id (paint c t) = id t. Proof. by destruct t. Qed.
Lemma paint_paint c d t : paint c (paint d t) = paint c t. Proof. by destruct t. Qed.

(** rb_tree.hpp:386-423: the loop with the node of [t] at the hole of [k] *)
Fixpoint fixup (t : tr) (k : ctx) : tr :=
  match k with
  | [] => t
  | f :: k1 =>
      match fcol f, k1 with
      | Black, _ => plug t k
      | Red, [] => plug t k
      | Red, f2 :: k2 =>
          match f2 with
          | FL cg g ag u =>
              if red u then fixup (T Red (paint Black (fill t f)) g ag (paint Black u)) k2
              else
                match f, t with
                | FL _ p ap rp, _ => plug (T Red t p ap (T cg rp g ag u)) k2
                | FR _ lp p ap, T ct tl x ax tr => plug (T Red (T Red lp p ap tl) x ax (T cg tr g ag u)) k2
                | FR _ lp p ap, E => plug t k
                end
          | FR cg u g ag =>
              if red u then fixup (T Red (paint Black u) g ag (paint Black (fill t f))) k2
              else
                match f, t with
                | FR _ lp p ap, _ => plug (T Black (T Red u g ag lp) p ap t) k2
                | FL _ p ap rp, T ct tl x ax tr => plug (T Black (T Red u g ag tl) x ax (T Red tr p ap rp)) k2
                | FL _ p ap rp, E => plug t k
                end
          end
      end
  end.

Lemma len2_ind (P : ctx -> Prop) :
  P [] -> (forall f, P [f]) -> (forall f g k, P k -> P (f :: g :: k)) -> forall k, P k.
Proof.
  intros H0 H1 H2 k. enough (P k /\ forall f, P (f :: k)) by tauto.
  induction k as [|g k [IH1 IH2]]; auto.
Qed.
Lemma elems_fixup t k : elems (fixup t k) = before k ++ elems t ++ after k.
Proof.
  revert t. induction k as [|f|f f2 k IH] using len2_ind; intros t.
  - cbn. by rewrite app_nil_r.
  - transitivity (elems (plug t [f])); [|apply elems_plug]. cbn. by destruct (fcol f).
  - transitivity (elems (plug t (f :: f2 :: k))); [|apply elems_plug].
    cbn [fixup]. destruct (fcol f); [|done].
    destruct f2 as [cg g ag u|cg u g ag].
    + destruct (red u).
      * rewrite IH. cbn [plug fill]. rewrite elems_plug. cbn [elems]. by rewrite !elems_paint.
      * destruct f as [c p ap rp|c lp p ap]; [|destruct t as [|ct tl x ax tr]]; cbn [plug fill]; rewrite ?elems_plug;
          cbn [elems]; lists.
    + destruct (red u).
      * rewrite IH. cbn [plug fill]. rewrite elems_plug. cbn [elems]. by rewrite !elems_paint.
      * destruct f as [c p ap rp|c lp p ap]; [destruct t as [|ct tl x ax tr]|]; cbn [plug fill]; rewrite ?elems_plug;
          cbn [elems]; lists.
Qed.
Lemma cnt_fixup t k l : cnt (fixup t k) l = cnt t l + ccnt k l.
Proof.
  revert t. induction k as [|f|f f2 k IH] using len2_ind; intros t.
  - cbn. lia.
  - transitivity (cnt (plug t [f]) l); [|apply cnt_plug]. cbn. by destruct (fcol f).
  - transitivity (cnt (plug t (f :: f2 :: k)) l); [|apply cnt_plug].
    cbn [fixup]. destruct (fcol f); [|done].
    destruct f2 as [cg g ag u|cg u g ag].
    + destruct (red u).
      * rewrite IH. cbn [plug fill]. rewrite cnt_plug. cbn [cnt]. by rewrite !cnt_paint.
      * destruct f as [c p ap rp|c lp p ap]; [|destruct t as [|ct tl x ax tr]]; cbn [plug fill]; rewrite ?cnt_plug; cbn [cnt]; lia.
    + destruct (red u).
      * rewrite IH. cbn [plug fill]. rewrite cnt_plug. cbn [cnt]. by rewrite !cnt_paint.
      * destruct f as [c p ap rp|c lp p ap]; [destruct t as [|ct tl x ax tr]|]; cbn [plug fill]; rewrite ?cnt_plug; cbn [cnt]; lia.
Qed.

(** 498-511 and 528-541: the sibling [b] has a red child *)
Definition borrow_l (cp : color) (x : tr) (p : loc) (ap : A) (bl : tr) (b : loc) (ab : A) (br : tr) : tr :=
  if red br then T cp (T Black x p ap bl) b ab (paint Black br)
  else match bl with
       | T _ l n an r => T cp (T Black x p ap l) n an (T Black r b ab br)
       | E => E
       end.
Definition borrow_r (cp : color) (bl : tr) (b : loc) (ab : A) (br : tr) (p : loc) (ap : A) (x : tr) : tr :=
  if red bl then T cp (paint Black bl) b ab (T Black br p ap x)
  else match br with
       | T _ l n an r => T cp (T Black bl b ab l) n an (T Black r p ap x)
       | E => E
       end.
(** 482-547: [x] at the hole is one black node short; [None]: the loop does not end *)
Fixpoint efix (x : tr) (k : ctx) : option tr :=
  if red x then Some (plug (paint Black x) k)
  else
    match k with
    | [] => Some x
    | FL cp p ap sib :: k' =>
        match sib with
        | E => None
        | T Red E b ab br => Some (plug (T Black (T Red x p ap E) b ab br) k')
        | T Red (T cn nl n an nr) b ab br =>
            Some (plug (T Black (if red nl || red nr then borrow_l Red x p ap nl n an nr
                                 else T Black x p ap (T Red nl n an nr)) b ab br) k')
        | T Black bl b ab br =>
            if red bl || red br then Some (plug (borrow_l cp x p ap bl b ab br) k')
            else efix (T cp x p ap (T Red bl b ab br)) k'
        end
    | FR cp sib p ap :: k' =>
        match sib with
        | E => None
        | T Red bl b ab E => Some (plug (T Black bl b ab (T Red E p ap x)) k')
        | T Red bl b ab (T cn nl n an nr) =>
            Some (plug (T Black bl b ab (if red nl || red nr then borrow_r Red nl n an nr p ap x
                                         else T Black (T Red nl n an nr) p ap x)) k')
        | T Black bl b ab br =>
            if red bl || red br then Some (plug (borrow_r cp bl b ab br p ap x) k')
            else efix (T cp (T Red bl b ab br) p ap x) k'
        end
    end.

Lemma elems_borrow_l cp x p ap bl b ab br :
  red bl || red br = true ->
  elems (borrow_l cp x p ap bl b ab br) = elems (T cp x p ap (T Black bl b ab br)).
Proof.
  intros Hr. unfold borrow_l. destruct (red br).
  - cbn [elems]. rewrite elems_paint. lists.
  - destruct bl as [|c l n an r]; [done|]. cbn [elems]. lists.
Qed.
Lemma elems_borrow_r cp x p ap bl b ab br :
  red bl || red br = true ->
  elems (borrow_r cp bl b ab br p ap x) = elems (T cp (T Black bl b ab br) p ap x).
Proof.
  intros Hr. unfold borrow_r. destruct (red bl).
  - cbn [elems]. rewrite elems_paint. lists.
  - destruct br as [|c l n an r]; [done|]. cbn [elems]. lists.
Qed.
Lemma elems_efix x k t : efix x k = Some t -> elems t = before k ++ elems x ++ after k.
Proof.
  revert x. induction k as [|f k IH]; intros x He; rewrite <- elems_plug.
  - cbn [efix] in He. destruct (red x); injection He as <-; cbn; by rewrite ?elems_paint.
  - assert (forall u, efix u k = Some t -> elems t = elems (plug u k)) as IH' by (intros u Hu; rewrite elems_plug; auto).
    cbn [efix] in He. destruct (red x).
    { injection He as <-. cbn [plug]. rewrite !elems_plug. destruct f; cbn [fill elems]; by rewrite elems_paint. }
    destruct f as [cp p ap sib|cp sib p ap].
    + destruct sib as [|[] bl b ab br]; [done| |].
      * destruct bl as [|cn nl n an nr]; injection He as <-; cbn [plug fill]; rewrite !elems_plug; f_equal; f_equal; cbn [elems].
        -- lists.
        -- destruct (red nl || red nr) eqn:Hr; [rewrite elems_borrow_l by done|]; cbn [elems];
             lists.
      * destruct (red bl || red br) eqn:Hr.
        -- injection He as <-. cbn [plug fill]. rewrite !elems_plug. f_equal. f_equal. by rewrite elems_borrow_l.
        -- cbn [plug fill]. rewrite (IH' _ He), !elems_plug. done.
    + destruct sib as [|[] bl b ab br]; [done| |].
      * destruct br as [|cn nl n an nr]; injection He as <-; cbn [plug fill]; rewrite !elems_plug; f_equal; f_equal; cbn [elems].
        -- lists.
        -- destruct (red nl || red nr) eqn:Hr; [rewrite elems_borrow_r by done|]; cbn [elems];
             lists.
      * destruct (red bl || red br) eqn:Hr.
        -- injection He as <-. cbn [plug fill]. rewrite !elems_plug. f_equal. f_equal. by rewrite elems_borrow_r.
        -- cbn [plug fill]. rewrite (IH' _ He), !elems_plug. done.
Qed.

(** the leftmost node of a tree and its context *)
Fixpoint unmin (t : tr) (k : ctx) : tr * ctx :=
  match t with T c (T _ _ _ _ _ as l) x a r => unmin l (FL c x a r :: k) | _ => (t, k) end.
(** 432-547: erase the node of [t] at the hole of [k] *)
Definition remove (t : tr) (k : ctx) : option tr :=
  match t with
  | E => None
  | T c E z az r => match c with Red => Some (plug r k) | Black => efix r k end
  | T c l z az E => match c with Red => Some (plug l k) | Black => efix l k end
  | T c l z az r =>
      match unmin r [] with
      | (T cy _ y ay ry, kr) =>
          let k' := kr ++ FR c l y ay :: k in
          match cy with Red => Some (plug ry k') | Black => efix ry k' end
      | (E, _) => None
      end
  end.
End pure.
Arguments tr : clear implicits.
Arguments fr : clear implicits.
