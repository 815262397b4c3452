(** Exactly when insertion breaks the rules and when erasure does not end. *)
From stdpp Require Import gmap list sorting.
From Coq Require Import ZArith Lia ZifyBool ZifyNat ZifyN.
From Verif Require Import Base RbModel RbPure RbHeap RbInsert RbErase RbUnlink RbOps RbSearch RbAdd RbDel RbBalance RbSpec RbRun RbHist RbThms RbThms2 RbExactSpec.
Local Open Scope outcome_scope.

Section pure.
Context {A : Type}.
Notation tr := (tr A).
Notation ctx := (list (fr A)).
Implicit Types (t : tr) (k : ctx).

Fixpoint brk k : Prop :=
  match k with
  | f :: f2 :: k2 => fcol f = Red /\ if red (sib f2) then brk k2 else match f2 with FL _ _ _ _ => True | FR _ _ _ _ => False end
  | _ => False
  end.
Lemma rbt_fun t n : rbt t n -> forall m, rbt t m -> n = m.
Proof.
  induction 1 as [|l x a r n Hl IHl Hr IHr _ _|l x a r n Hl IHl Hr IHr]; intros m Hm; inversion Hm; subst; [done|auto|]. f_equal. auto.
Qed.
Definition blk_frame (f : fr A) : fr A := match f with FL _ x a r => FL Black x a r | FR _ l x a => FR Black l x a end.
Fixpoint blk k : ctx := match k with [] => [] | f :: k => match k with [] => [blk_frame f] | _ => f :: blk k end end.
Lemma plug_blk k : forall t, k <> [] -> paint Black (plug t k) = plug t (blk k).
Proof.
  induction k as [|f k IH]; intros t N; [done|]. destruct k as [|g k].
  - by destruct f.
  - change (blk (f :: g :: k)) with (f :: blk (g :: k)). cbn [plug]. rewrite <- IH by done. done.
Qed.
Lemma paint_sub t k : k <> [] -> good (paint Black (plug t k)) -> exists n, rbt t n.
Proof. intros N G. rewrite plug_blk in G by done. destruct (good_plug _ _ G) as (n & R & _). eauto. Qed.
Lemma paint_good t : good t -> good (paint Black t).
Proof. intros [n G]. destruct t; [exists 0; constructor|]. cbn [paint]. inversion G; subst; eexists; by constructor. Qed.
Lemma red_shape t : red t = true -> exists l x a r, t = T Red l x a r.
Proof. destruct t as [|[]]; try done. eauto 10. Qed.

Lemma fixup_exact k : forall t n, low_black k -> rbt t n -> red t = true -> okc k n -> good (paint Black (fixup t k)) <-> ~ brk k.
Proof.
  induction k as [|f|f f2 k IH] using len2_ind; intros t n LB Ht Hr Hk.
  - split; [intros _ []|]. intros _. exists (S n). by apply paint_red.
  - split; [intros _ []|]. intros _. cbn [okc] in Hk. destruct Hk as (Hs & _ & _). unfold low_black in LB. cbn in LB.
    cbn [fixup]. rewrite LB. apply paint_good. cbn [plug]. exists (S n). destruct f as [c x a r|c l x a]; cbn in LB; subst c; by constructor.
  - pose proof Hk as Hk0. cbn [okc] in Hk. destruct Hk as (Hs & Hc & Hu & Hc2 & Hk). cbn [fixup brk].
    destruct (fcol f) eqn:Ef; cycle 1.
    { split; [intros _ [? _]; done|]. intros _. apply paint_good, (plug_good _ _ n); [done|exact Hk0|]. intros _. exact Ef. }
    destruct (Hc eq_refl) as [Rs Hb]. cbn in Hb. cbn [up] in *. rewrite Hb in Hk, Hc2. cbn [up] in Hk.
    assert (LB2 : low_black k) by (by apply low_black_tl, low_black_tl in LB).
    destruct (red_shape _ Hr) as (tl & x & ax & tr & ->). inversion Ht as [|? ? ? ? ? Htl Htr Rtl Rtr|]; subst.
    destruct f2 as [cg g ag u|cg u g ag]; cbn [sib fcol] in *; subst cg; destruct (red u) eqn:Eu.
    + rewrite (IH _ (S n)); [tauto|done| |done|done].
      constructor; try apply red_paint_black; [|by apply paint_red].
      destruct f as [c p a r|c l p a]; cbn in Ef, Hs; subst c; cbn [fill paint]; by constructor.
    + split; [|intros X; by destruct X]. intros G. exfalso.
      destruct f as [c p ap rp|c lp p ap]; cbn in Ef, Hs, Rs; subst c.
      * destruct k as [|f3 k].
        -- cbn [plug paint] in G. destruct G as [m G]. inversion G as [| |? ? ? ? m' G1 G2]; subst.
           pose proof (rbt_fun _ _ Ht _ G1). subst m'. inversion G2 as [| |? ? ? ? m'' G3 G4]; subst. pose proof (rbt_fun _ _ Hs _ G3). lia.
        -- apply paint_sub in G; [|done]. destruct G as [m G]. inversion G; subst. done.
      * destruct k as [|f3 k].
        -- cbn [plug paint] in G. destruct G as [m G]. inversion G as [| |? ? ? ? m' G1 G2]; subst.
           inversion G1 as [|? ? ? ? ? G5 G6 _ _|]; subst. pose proof (rbt_fun _ _ Hs _ G5). subst m'. inversion G2 as [| |? ? ? ? m'' G3 G4]; subst. pose proof (rbt_fun _ _ Hu _ G4). lia.
        -- apply paint_sub in G; [|done]. destruct G as [m G]. inversion G; subst. done.
    + rewrite (IH _ (S n)); [tauto|done| |done|done].
      constructor; try apply red_paint_black; [by apply paint_red|].
      destruct f as [c p a r|c l p a]; cbn in Ef, Hs; subst c; cbn [fill paint]; by constructor.
    + split; [intros _ [_ X]; exact X|]. intros _. apply paint_good.
      destruct f as [c p ap rp|c lp p ap]; cbn in Ef, Hs, Rs; subst c; (apply (plug_good k _ (S n)); [|done|done]); constructor; by constructor.
Qed.

(** erasure *)
Fixpoint stv k : Prop :=
  match k with
  | [] => False
  | f :: k =>
      match sib f with
      | E => True
      | T Red _ _ _ _ => False
      | T Black bl _ _ br => red bl = false /\ red br = false /\ fcol f = Black /\ stv k
      end
  end.
Lemma efix_none k : forall x, efix x k = None <-> red x = false /\ stv k.
Proof.
  induction k as [|f k IH]; intros x; cbn [efix stv].
  - destruct (red x); split; try done; tauto.
  - destruct (red x) eqn:Ex; [split; [done|intros [? _]; done]|].
    destruct f as [cp p ap sb|cp sb p ap]; cbn [sib fcol].
    + destruct sb as [|[] bl b ab br]; [tauto| |].
      * destruct bl; split; try done; tauto.
      * destruct (red bl) eqn:E1, (red br) eqn:E2; cbn [orb]; try (split; [done|]; intros (_ & X & Y & _); done).
        rewrite IH. destruct cp; cbn [red]; intuition congruence.
    + destruct sb as [|[] bl b ab br]; [tauto| |].
      * destruct br; split; try done; tauto.
      * destruct (red bl) eqn:E1, (red br) eqn:E2; cbn [orb]; try (split; [done|]; intros (_ & X & Y & _); done).
        rewrite IH. destruct cp; cbn [red]; intuition congruence.
Qed.
Lemma stv_app k c l z az y ay k' : stv (k ++ FR c l z az :: k') <-> stv (k ++ FR c l y ay :: k').
Proof. induction k as [|f k IH]; cbn [app stv sib fcol]; [done|]. destruct (sib f) as [|[]]; try done. by rewrite IH. Qed.
Lemma remove_none c l z az r k : remove (T c l z az r) k = None <->
  match l, r with
  | T _ _ _ _ _, T _ _ _ _ _ =>
      match unmin r [] with
      | (T cy _ y ay ry, kr) => cy = Black /\ red ry = false /\ stv (kr ++ FR c l z az :: k)
      | (E, _) => True
      end
  | _, _ => c = Black /\ red l = false /\ red r = false /\ stv k
  end.
Proof.
  unfold remove. destruct l as [|cl ll xl al lr].
  - destruct c; [split; [done|intros [? _]; done]|]. rewrite efix_none. cbn [red]. tauto.
  - destruct r as [|cr rl xr ar rr].
    + destruct c; [split; [done|intros [? _]; done]|]. rewrite efix_none. cbn [red]. tauto.
    + destruct (unmin (T cr rl xr ar rr) []) as [[|cy yl y ay ry] kr]; [done|].
      destruct cy; [split; [done|intros [? _]; done]|]. rewrite efix_none, (stv_app kr c (T cl ll xl al lr) z az y ay k). tauto.
Qed.
End pure.

Section heap.
Context {A : Type} (H : loc).
Notation tr := (tr A).
Notation ctx := (list (fr A)).
Notation heap := (heap A).
Implicit Types (s : heap) (t : tr) (k : ctx).

Lemma red_ptr_ok s t p : rep s t p -> red_ptr s (id t) <-> red t = true.
Proof.
  destruct t as [|c l x a r]; cbn [rep id red red_ptr]; [done|]. intros (Hx & _). split.
  - intros (n & Hn & C). rewrite Hx in Hn. injection Hn as <-. cbn in C. by subst c.
  - intros C. destruct c; [|done]. eauto.
Qed.
Lemma id_cnt t x : id t = Some x -> 0 < cnt t x.
Proof. destruct t; [done|]. intros [= ->]. cbn [cnt]. rewrite bit_same. lia. Qed.
(** the node of a frame *)
Definition fnode (f : fr A) (hole up : option loc) : node A :=
  match f with
  | FL c x a r => {| col := c; lf := hole; rt := id r; pa := up; vl := Some a |}
  | FR c l x a => {| col := c; lf := id l; rt := hole; pa := up; vl := Some a |}
  end.
Lemma repc_cons s mn mx f k h : repc H s mn mx (f :: k) h ->
  cells s !! floc f = Some (fnode f h (Some (pid H k))) /\ rep s (sib f) (floc f) /\ repc H s mn mx k (Some (floc f)).
Proof. by destruct f. Qed.
Lemma ccnt_cons f k q : ccnt (f :: k) q = bit (floc f) q + cnt (sib f) q + ccnt k q.
Proof. by destruct f. Qed.
Lemma children_frame f x up o : cnt (sib f) x = 0 -> children (fnode f (Some x) up) x o <-> o = id (sib f).
Proof.
  intros C. assert (id (sib f) <> Some x) as N by (intros N; apply id_cnt in N; lia).
  unfold children. destruct f; cbn [fnode lf rt sib] in *; split; try (intros ->; auto); intros [[X Y]|[X Y]]; congruence.
Qed.
Lemma pid_head k : (forall q, bit H q + ccnt k q <= 1) -> pid H k <> H <-> k <> [].
Proof.
  intros D. destruct k as [|f k]; [done|]. split; [done|]. intros _ X. cbn [pid] in X. specialize (D H). rewrite ccnt_cons, X, !bit_same in D. lia.
Qed.

Lemma breaks_ok k : forall s mn mx h, repc H s mn mx k h -> low_black k -> (forall q, bit H q + ccnt k q <= 1) -> k <> [] ->
  breaks s H (pid H k) <-> brk k.
Proof.
  induction k as [|f|f f2 k IH] using len2_ind; intros s mn mx h R LB D N; [done| |].
  - apply repc_cons in R as (Hf & _). cbn [pid] in *. split; [|done]. intros B.
    unfold low_black in LB. cbn in LB. assert (col (fnode f h (Some H)) = Black) as C by (by destruct f).
    inversion B as [p np g ng B1 B2|p np g ng o q B1 B2]; subst; rewrite Hf in B1; injection B1 as <-; congruence.
  - clear N. apply repc_cons in R as (Hf & _ & R). apply repc_cons in R as (Hg & Rs & R). cbn [pid brk].
    assert (cnt (sib f2) (floc f) = 0) as C0 by (specialize (D (floc f)); rewrite !ccnt_cons, bit_same in D; lia).
    assert (col (fnode f h (Some (floc f2))) = fcol f) as Cf by (by destruct f).
    assert (pa (fnode f h (Some (floc f2))) = Some (floc f2)) as Pf by (by destruct f).
    assert (pa (fnode f2 (Some (floc f)) (Some (pid H k))) = Some (pid H k)) as Pg by (by destruct f2).
    assert (forall q, bit H q + ccnt k q <= 1) as D2 by (intros q; specialize (D q); rewrite !ccnt_cons in D; lia).
    assert (low_black k) as LB2 by (by apply low_black_tl, low_black_tl in LB).
    pose proof (red_ptr_ok _ _ _ Rs) as RS. cbn [pid] in Hf. split.
    + intros B. inversion B as [p np g ng B1 B2 B3 B4 B5 B6|p np g ng o q B1 B2 B3 B4 B5 B6 B7 B8 B9]; subst; rewrite Hf in B1; injection B1 as <-;
        rewrite Pf in B3; injection B3 as <-; rewrite Hg in B4; injection B4 as <-; rewrite Cf in B2; (split; [exact B2|]).
      * destruct f2 as [c2 g a2 u|c2 u g a2]; cbn [fnode lf rt sib] in *.
        -- destruct (red u) eqn:Eu; [|done]. destruct B6. by apply RS.
        -- exfalso. apply id_cnt in B5. lia.
      * rewrite Pg in B7. injection B7 as <-. apply children_frame in B5; [|exact C0]. subst o. apply RS in B6. rewrite B6.
        apply pid_head in B8; [|exact D2]. by apply (IH s mn mx _ R LB2 D2 B8).
    + intros [C1 C2]. destruct (red (sib f2)) eqn:Eu.
      * destruct (decide (k = [])) as [->|Nk]; [done|].
        eapply (breaks_up s H (floc f) _ (floc f2) _ (id (sib f2)) (pid H k)); [exact Hf|by rewrite Cf|exact Pf|exact Hg| |by apply RS|exact Pg| |].
        -- by apply children_frame.
        -- by apply pid_head.
        -- by apply (IH s mn mx _ R LB2 D2 Nk).
      * destruct f2 as [c2 g a2 u|c2 u g a2]; [|done]. cbn [sib fnode floc] in *.
        eapply (breaks_here s H (floc f) _ g); [exact Hf|by rewrite Cf|exact Pf|exact Hg|done|]. cbn [rt]. intros X. apply RS in X. congruence.
Qed.

Lemma starves_ok k : forall s mn mx y, repc H s mn mx k (Some y) -> (forall q, bit H q + bit y q + ccnt k q <= 1) -> k <> [] ->
  starves s H (pid H k) y <-> stv k.
Proof.
  induction k as [|f k IH]; intros s mn mx y R D N; [done|]. clear N. apply repc_cons in R as (Hf & Rs & R). cbn [pid stv].
  assert (cnt (sib f) y = 0) as C0 by (specialize (D y); rewrite ccnt_cons, (bit_same y) in D; lia).
  assert (col (fnode f (Some y) (Some (pid H k))) = fcol f) as Cf by (by destruct f).
  assert (pa (fnode f (Some y) (Some (pid H k))) = Some (pid H k)) as Pf by (by destruct f).
  assert (forall q, bit H q + bit (floc f) q + ccnt k q <= 1) as D2 by (intros q; specialize (D q); rewrite !ccnt_cons in D; lia).
  assert (pid H k <> H <-> k <> []) as PH by (apply pid_head; intros q; specialize (D2 q); lia). split.
  - intros B. inversion B as [p y' np B1 B2|p y' np b nb q B1 B2 B3 B4 B5 B6 B7 B8 B9 B10]; subst; rewrite Hf in B1; injection B1 as <-;
      (apply children_frame in B2; [|exact C0]).
    + destruct (sib f); done.
    + destruct (sib f) as [|cb bl b' ab br]; [done|]. cbn [id] in B2. injection B2 as ->. cbn [rep] in Rs. destruct Rs as (Hb & Rl & Rr).
      rewrite Hb in B3. injection B3 as <-. cbn [col lf rt] in *. subst cb. rewrite Pf in B8. injection B8 as <-. rewrite Cf in B7.
      rewrite (red_ptr_ok _ _ _ Rl) in B5. rewrite (red_ptr_ok _ _ _ Rr) in B6. split; [by destruct (red bl)|]. split; [by destruct (red br)|]. split; [done|].
      apply (IH s mn mx _ R D2); [by apply PH|done].
  - intros S. destruct (sib f) as [|cb bl b ab br] eqn:Es.
    + eapply starves_here; [exact Hf|]. apply children_frame; rewrite Es; done.
    + destruct cb; [done|]. destruct S as (S1 & S2 & S3 & S4). cbn [rep] in Rs. destruct Rs as (Hb & Rl & Rr).
      assert (k <> []) as Nk by (by intros ->).
      eapply starves_up; [exact Hf| |exact Hb|done| | |by rewrite Cf|exact Pf|by apply PH|].
      * apply children_frame; rewrite Es; done.
      * cbn [lf]. rewrite (red_ptr_ok _ _ _ Rl). congruence.
      * cbn [rt]. rewrite (red_ptr_ok _ _ _ Rr). congruence.
      * by apply (IH s mn mx _ R D2).
Qed.
Lemma black_end_ok s mn mx c l y a r k : repc H s mn mx k (Some y) -> rep s (T c l y a r) (pid H k) ->
  (forall q, bit H q + cnt (T c l y a r) q + ccnt k q <= 1) ->
  black_end s H y <-> c = Black /\ red l = false /\ red r = false /\ stv k.
Proof.
  intros K R D. cbn [rep cnt] in *. destruct R as (Hy & Rl & Rr).
  assert (pid H k <> H <-> k <> []) as PH by (apply pid_head; intros q; specialize (D q); lia).
  assert (forall q, bit H q + bit y q + ccnt k q <= 1) as D2 by (intros q; specialize (D q); lia).
  unfold black_end. split.
  - intros (ny & p & B1 & B2 & B3 & B4 & B5 & B6 & B7). rewrite Hy in B1. injection B1 as <-. cbn [col lf rt pa] in *. injection B5 as <-.
    rewrite (red_ptr_ok _ _ _ Rl) in B3. rewrite (red_ptr_ok _ _ _ Rr) in B4. split; [done|]. split; [by destruct (red l)|]. split; [by destruct (red r)|].
    apply (starves_ok k s mn mx y); [done|done|by apply PH|done].
  - intros (-> & C1 & C2 & C3). assert (k <> []) as Nk by (by intros ->). eexists _, (pid H k). split; [exact Hy|]. cbn [col lf rt pa]. split; [done|].
    rewrite (red_ptr_ok _ _ _ Rl), (red_ptr_ok _ _ _ Rr). split; [congruence|]. split; [congruence|]. split; [done|]. split; [by apply PH|].
    by apply (starves_ok k s mn mx y).
Qed.

Lemma last_right k : forall s mn mx h y b, repc H s mn mx k (Some h) -> last (before k) = Some (y, b) ->
  exists n, cells s !! y = Some n /\ is_Some (rt n).
Proof.
  induction k as [|[c x a r|c l x a] k IH]; intros s mn mx h y b R L; [done| |]; cbn [repc before] in *; destruct R as (Hx & _ & R).
  - eauto.
  - rewrite app_assoc, last_snoc in L. injection L as <- <-. eauto.
Qed.
Lemma hung_ok s mn mx k p : repc H s mn mx k None -> hung s (before k ++ after k) (length (before k)) p <-> k <> [] /\ p = pid H k.
Proof.
  intros R. unfold hung. destruct k as [|[c x a r|c l x a] k].
  - cbn [before after app length]. split; [done|]. by intros [? _].
  - cbn [before after repc pid floc] in *. destruct R as (Hx & _ & R).
    assert ((before k ++ (x, a) :: elems r ++ after k) !! length (before k) = Some (x, a)) as L by (by apply list_lookup_middle).
    destruct (length (before k)) as [|j] eqn:Ej.
    + cbn [pred]. rewrite L. split; [intros ->; done|tauto].
    + cbn [pred]. rewrite lookup_app_l by lia. destruct (last (before k)) as [[y b]|] eqn:El; [|apply last_None in El; by rewrite El in Ej].
      pose proof El as El'. rewrite last_lookup, Ej in El'. cbn [pred] in El'. rewrite El'. destruct (last_right k s mn mx x y b R El) as (n & Hn & [z Hz]).
      split.
      * intros (n' & Hn' & X). rewrite Hn in Hn'. injection Hn' as <-. rewrite Hz in X. destruct X as [a' X]. rewrite L in X. injection X as <- _. done.
      * intros [_ ->]. exists n. split; [done|]. rewrite Hz. eauto.
  - cbn [before after repc pid floc] in *. destruct R as (Hx & _ & R). rewrite app_assoc, app_length. cbn [length].
    rewrite <- plus_n_Sm, Nat.add_0_r. cbn [pred]. rewrite <- app_assoc. cbn [app]. rewrite list_lookup_middle by done. split.
    + intros (n & Hn & X). rewrite Hx in Hn. injection Hn as <-. done.
    + intros [_ ->]. eexists. split; [exact Hx|]. done.
Qed.
End heap.

Section thms.
Context {A : Type} (lt : A -> A -> bool) (WO : weak_order lt).
Notation tr := (tr A).
Notation heap := (heap A).
Implicit Types (s : heap) (t : tr) (T : tree).
Notation same := (same lt).

Lemma insert_pure_exact H s t x v : hold s H t -> StronglySorted (le2 lt) (elems t) -> good t ->
  good (insert lt x v t) <-> ~ exists p, hung s (elems t) (place_of lt v (elems t).*2) p /\ breaks s H p.
Proof.
  intros Q S G. set (k := descend lt v t []).
  assert (plug E k = t) as Ek by apply plug_descend.
  destruct (descend_split lt v t []) as (k' & E1 & E2). rewrite app_nil_r in E1. fold k in E1. subst k'.
  destruct (descend_sorted lt (swo_of lt WO) v t [] S (List.Forall_nil _) (List.Forall_nil _)) as [HB HA]. fold k in HB, HA.
  assert (place_of lt v (elems t).*2 = length (before k)) as ->.
  { unfold place_of. rewrite <- E2, fmap_app, List.filter_app, filter_all, filter_none, app_nil_r, fmap_length; [done| |].
    - apply Forall_fmap, (Forall_impl _ _ _ HA). intros p Hp. unfold compose. by rewrite Hp.
    - apply Forall_fmap, (Forall_impl _ _ _ HB). intros p Hp. unfold compose. by rewrite Hp. }
  assert (low_black k) as LB. { apply (low_black_red E). rewrite Ek. apply Q. }
  rewrite <- Ek in G. destruct (good_plug _ _ G) as (n & R & O). inversion R; subst n.
  assert (rbt (RbPure.T Red E x v E) 0) as Rx by (by repeat constructor).
  unfold insert. fold k. rewrite (fixup_exact k _ 0 LB Rx eq_refl (proj1 O)).
  pose proof Q as Q0. rewrite <- Ek in Q0. apply hold_focus in Q0. pose proof (at_repc _ _ _ _ _ _ _ _ Q0) as K. cbn [id] in K.
  assert (forall q, bit H q + ccnt k q <= 1) as D. { intros q. pose proof (at_le _ _ _ _ _ _ q Q0) as X. cbn [cnt] in X. lia. }
  rewrite <- E2. apply not_iff_compat. split.
  - intros B. assert (k <> []) as Nk by (by intros X; rewrite X in B). exists (pid H k). split; [by apply (hung_ok H s _ _ k _ K)|].
    by apply (breaks_ok H k s _ _ _ K).
  - intros (p & X & B). apply (hung_ok H s _ _ k _ K) in X as [Nk ->]. by apply (breaks_ok H k s _ _ _ K).
Qed.
Theorem insert_exact fuel0 u cs T s fuel v : run lt fuel0 u cs = Ok (T, s) -> adds cs < fuel0 -> adds cs < fuel -> balanced T s ->
  exists l T' s', forward fuel (hd T) s = Ok l /\ add lt fuel u T v s = Ok (T', s') /\
    (balanced T' s' <-> ~ (u && existsb (same v) l.*2 = false /\
       exists p, hung s l (place_of lt v l.*2) p /\ breaks s (hd T) p)).
Proof.
  intros E Hf0 Hf B. destruct (reach lt WO fuel0 u cs T s E Hf0) as (t & I & U & F & _). apply (balanced_good lt T s t I) in B.
  assert (length (elems t) <= adds cs) as Hl. { rewrite <- (fmap_length snd), F. apply (effects_len lt u cs []). }
  assert (length (elems t) < fuel) as Hf' by lia. pose proof (i_hold _ _ _ _ I) as Q.
  pose proof (insert_pure_exact (hd T) s t (made s) v Q (i_srt _ _ _ _ I) B) as X. exists (elems t).
  unfold add. destruct u; cbn [andb].
  - pose proof (add_unique lt (swo_of lt WO) T s t v fuel I Hf') as Y. destruct (existsb (same v) (elems t).*2).
    + destruct Y as [Y1 Y2]. eexists _, _. split; [by apply forward_ok|]. rewrite Y1. split; [reflexivity|].
      split; [intros _ [? _]; done|]. intros _. by apply (balanced_good lt T _ t Y2).
    + destruct Y as (T' & s' & t' & Y1 & Y2 & -> & Y4). exists T', s'. split; [by apply forward_ok|]. rewrite Y1. split; [reflexivity|].
      rewrite (balanced_good lt T' s' _ Y4), X. tauto.
  - destruct (add_multi lt (swo_of lt WO) T s t v fuel I Hf') as (T' & s' & t' & Y1 & Y2 & -> & Y4). exists T', s'. split; [by apply forward_ok|]. rewrite Y1. split; [reflexivity|].
    rewrite (balanced_good lt T' s' _ Y4), X. tauto.
Qed.

Lemma remove_heap s H c l z az r k : hold s H (plug (RbPure.T c l z az r) k) ->
  remove (RbPure.T c l z az r) k = None <->
  exists y, leaves s (elems (plug (RbPure.T c l z az r) k)) (length (before k ++ elems l)) y /\ black_end s H y.
Proof.
  intros Q. pose proof (hold_focus _ _ _ _ Q) as P. pose proof (at_repc _ _ _ _ _ _ _ _ P) as K. pose proof (at_rep _ _ _ _ _ _ _ _ P) as R.
  assert (D : forall q, bit H q + cnt (RbPure.T c l z az r) q + ccnt k q <= 1) by (intros q; apply (at_le _ _ _ _ _ _ q P)).
  assert (EL : elems (plug (RbPure.T c l z az r) k) = (before k ++ elems l) ++ (z, az) :: elems r ++ after k).
  { rewrite elems_plug. cbn [elems]. by rewrite <- !app_assoc. }
  assert (L0 : elems (plug (RbPure.T c l z az r) k) !! length (before k ++ elems l) = Some (z, az)) by (rewrite EL; by apply list_lookup_middle).
  pose proof R as R0. cbn [rep] in R0. destruct R0 as (Hz & _).
  rewrite remove_none. cbn [id] in K.
  assert (ONE : (forall y, leaves s (elems (plug (RbPure.T c l z az r) k)) (length (before k ++ elems l)) y <-> y = z) ->
    (c = Black /\ red l = false /\ red r = false /\ stv k) <->
    exists y, leaves s (elems (plug (RbPure.T c l z az r) k)) (length (before k ++ elems l)) y /\ black_end s H y).
  { intros X. rewrite <- (black_end_ok H s _ _ c l z az r k K R D). split.
    - intros B. exists z. split; [by apply X|done].
    - intros (y & Y & B). apply X in Y. by subst y. }
  assert (LV : forall y, leaves s (elems (plug (RbPure.T c l z az r) k)) (length (before k ++ elems l)) y <->
    match id l, id r with Some _, Some _ => exists b, elems (plug (RbPure.T c l z az r) k) !! S (length (before k ++ elems l)) = Some (y, b) | _, _ => y = z end).
  { intros y. unfold leaves. split.
    - intros (x & a & n & X1 & X2 & X3). rewrite L0 in X1. injection X1 as <- <-. rewrite Hz in X2. injection X2 as <-. exact X3.
    - intros X. exists z, az. eexists. split; [done|]. split; [exact Hz|exact X]. }
  destruct l as [|cl ll xl al lr]; [exact (ONE LV)|]. destruct r as [|cr rl xr ar rr]; [exact (ONE LV)|]. clear ONE.
  set (l := RbPure.T cl ll xl al lr) in *. set (r := RbPure.T cr rl xr ar rr) in *.
  pose proof (unmin_plug r []) as U1. destruct (unmin_ctx r []) as (k' & U2 & U3).
  destruct (unmin_shape r [] ltac:(done)) as (cy & y & ay & ry & U4). destruct (unmin r []) as [u kr]. cbn [fst snd] in *. subst u.
  rewrite app_nil_r in U2. subst k'. cbn [plug] in U1. set (k2 := kr ++ FR c l z az :: k).
  assert (EP : plug (RbPure.T c l z az r) k = plug (RbPure.T cy E y ay ry) k2) by (unfold k2; rewrite plug_app, U1; done).
  pose proof Q as Q2. rewrite EP in Q2. apply hold_focus in Q2.
  pose proof (black_end_ok H s _ _ cy E y ay ry k2 (at_repc _ _ _ _ _ _ _ _ Q2) (at_rep _ _ _ _ _ _ _ _ Q2) (fun q => at_le _ _ _ _ _ _ q Q2)) as BE.
  assert (NX : elems (plug (RbPure.T c l z az r) k) !! S (length (before k ++ elems l)) = Some (y, ay)).
  { rewrite EL, lookup_app_r by lia. replace (S _ - _) with 1 by lia. cbn [lookup list_lookup]. rewrite <- U1, elems_plug, U3. done. }
  split.
  - intros (C1 & C2 & C3). exists y. split; [apply LV; exists ay; exact NX|]. apply BE. done.
  - intros (y' & Y & B). apply LV in Y. cbn [id l r] in Y. destruct Y as [b Y]. rewrite NX in Y. injection Y as <- <-. apply BE in B. tauto.
Qed.
Theorem hang_exact fuel0 u cs T s fuel : run lt fuel0 u cs = Ok (T, s) -> adds cs < fuel0 -> adds cs < fuel ->
  exists l, forward fuel (hd T) s = Ok l /\
    forall i x a, l !! i = Some (x, a) -> (erase fuel T x s = Fuel <-> exists y, leaves s l i y /\ black_end s (hd T) y).
Proof.
  intros E Hf0 Hf. destruct (reach lt WO fuel0 u cs T s E Hf0) as (t & I & U & F & _).
  assert (length (elems t) <= adds cs) as Hl. { rewrite <- (fmap_length snd), F. apply (effects_len lt u cs []). }
  assert (length (elems t) < fuel) as Hf' by lia. pose proof (i_hold _ _ _ _ I) as Q. exists (elems t). split; [by apply forward_ok|].
  intros i x a Hx. pose proof (eq_sym (take_drop_middle _ _ _ Hx)) as Ed.
  destruct (focus_split (hd T) s t _ x a _ Q Ed) as (c & l & r & k & -> & EL & ER).
  assert (i = length (before k ++ elems l)) as ->. { rewrite <- EL, take_length_le; [done|]. apply lookup_lt_Some in Hx. lia. }
  rewrite <- (remove_heap s (hd T) c l x a r k Q). destruct T as [H n]. cbn [hd] in *.
  pose proof (erase_ok lt H fuel s n c l x a r k Q (i_wf _ _ _ _ I) Hf') as X. destruct (remove (RbPure.T c l x a r) k) as [t'|].
  - destruct X as (s' & -> & _). done.
  - done.
Qed.
End thms.
