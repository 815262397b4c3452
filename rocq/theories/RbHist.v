(** Every program over one set or multiset keeps the sequence of elements the specification gives. *)
From stdpp Require Import gmap list sorting.
From Coq Require Import ZArith Lia ZifyBool ZifyNat ZifyN.
From Verif Require Import Base RbModel RbPure RbHeap RbInsert RbErase RbUnlink RbOps RbSearch RbAdd RbDel RbBalance RbSpec RbRun.
Local Open Scope outcome_scope.

Lemma swo_of {A} (lt : A -> A -> bool) : weak_order lt -> swo lt.
Proof. intros [H1 H2 H3]. split; [done|done|]. intros a b c X. exact (H3 a c b X). Qed.

Section hist.
Context {A : Type} (lt : A -> A -> bool) (LT : swo lt).
Notation tr := (tr A).
Notation heap := (heap A).
Notation cmd := (cmd (A := A)).
Implicit Types (s : heap) (t : tr) (T : tree).
Notation srt := (StronglySorted (le2 lt)).
Notation sv := (StronglySorted (fun a b => lt b a = false)).
Notation same := (same lt).

Lemma srt_sv (l : list (loc * A)) : srt l <-> sv l.*2.
Proof.
  induction l as [|p l IH]; [split; constructor|]. cbn [fmap list_fmap]. split; intros S; apply StronglySorted_inv in S as [S F]; constructor.
  - by apply IH.
  - apply Forall_fmap. exact F.
  - by apply IH.
  - apply Forall_fmap in F. exact F.
Qed.
Lemma sv_app (l l' : list A) : sv (l ++ l') <-> sv l /\ sv l' /\ Forall (fun a => Forall (fun b => lt b a = false) l') l.
Proof.
  induction l as [|x l IH]; cbn [app].
  - split; [|tauto]. intros X. split; [constructor|]. by split.
  - split.
    + intros X. apply StronglySorted_inv in X as [X Y]. apply IH in X as (X1 & X2 & X3). apply Forall_app in Y as [Y1 Y2].
      split; [by constructor|]. split; [done|]. by constructor.
    + intros (X & Y & Z). apply StronglySorted_inv in X as [X X']. apply Forall_cons in Z as [Z Z']. constructor; [by apply IH|].
      apply Forall_app. done.
Qed.

(** the three parts of a sorted list *)
Lemma split3 k (l : list (loc * A)) : srt l -> exists L M R, l = L ++ M ++ R /\
  dropw (fun p => lt (snd p) k) l = M ++ R /\ dropw (fun p => negb (lt k (snd p))) l = R /\
  Forall (fun p => lt (snd p) k = true) L /\ Forall (fun p => same k (snd p) = true) M /\ Forall (fun p => lt k (snd p) = true) R.
Proof.
  induction l as [|[x a] l IH]; intros S.
  - exists [], [], []. repeat split; constructor.
  - apply StronglySorted_inv in S as [S F]. destruct (IH S) as (L & M & R & E1 & E2 & E3 & F1 & F2 & F3).
    cbn [dropw snd]. destruct (lt a k) eqn:E.
    + assert (lt k a = false) as E'.
      { destruct (lt k a) eqn:E4; [|done]. pose proof (swo_trans _ LT _ _ _ E E4) as X. by rewrite (swo_irr _ LT) in X. }
      rewrite E'. cbn [negb]. exists ((x, a) :: L), M, R. repeat split; try done; [cbn; by rewrite E1|by constructor].
    + assert (L = []) as ->.
      { destruct L as [|[y b] L]; [done|]. rewrite E1 in F. apply Forall_cons in F as [F _]. apply Forall_cons in F1 as [F1 _]. unfold le2 in F. cbn in *.
        pose proof (down_lower lt LT k a b F F1). congruence. }
      cbn [app] in *. destruct (lt k a) eqn:E4; cbn [negb].
      * assert (M = []) as ->.
        { destruct M as [|[y b] M]; [done|]. rewrite E1 in F. apply Forall_cons in F as [F _]. apply Forall_cons in F2 as [F2 _]. unfold le2, RbSpec.same in *. cbn in *.
          destruct (swo_neg _ LT _ _ b E4) as [X|X]; [|congruence]. rewrite X in F2. done. }
        exists [], [], ((x, a) :: R). cbn [app] in *. subst l. repeat split; try done; by constructor.
      * exists [], ((x, a) :: M), R. cbn [app] in *. subst l. repeat split; try done. constructor; [|done]. unfold RbSpec.same. cbn. by rewrite E, E4.
Qed.
Lemma sv_split3 k l : sv l -> exists L M R, l = L ++ M ++ R /\
  Forall (fun a => lt a k = true) L /\ Forall (fun a => same k a = true) M /\ Forall (fun a => lt k a = true) R.
Proof.
  intros S. assert (srt ((fun a => (0, a)) <$> l)) as S' by (apply srt_sv; rewrite <- list_fmap_compose; by rewrite list_fmap_id).
  destruct (split3 k _ S') as (L & M & R & E & _ & _ & F1 & F2 & F3). exists L.*2, M.*2, R.*2.
  rewrite <- !fmap_app, <- E, <- list_fmap_compose, list_fmap_id. split; [done|]. by rewrite !Forall_fmap.
Qed.
Lemma not_same_lt k a : lt a k = true -> same k a = false.
Proof. intros X. unfold RbSpec.same. rewrite X. cbn. by rewrite andb_false_r. Qed.
Lemma not_same_gt k a : lt k a = true -> same k a = false.
Proof. intros X. unfold RbSpec.same. by rewrite X. Qed.
Lemma filter_all {B} (g : B -> bool) l : Forall (fun a => g a = true) l -> List.filter g l = l.
Proof. induction 1 as [|a l Ha _ IH]; cbn; [done|]. by rewrite Ha, IH. Qed.
Lemma filter_none {B} (g : B -> bool) l : Forall (fun a => g a = false) l -> List.filter g l = [].
Proof. induction 1 as [|a l Ha _ IH]; cbn; [done|]. by rewrite Ha. Qed.

Lemma place_split v (l : list A) : place lt v l = takew (fun a => negb (lt v a)) l ++ v :: dropw (fun a => negb (lt v a)) l.
Proof. induction l as [|a l IH]; cbn; [done|]. destruct (lt v a); cbn; [done|]. by rewrite IH. Qed.
Lemma takew_fmap (g : A -> bool) (l : list (loc * A)) : (takew (fun p => g (snd p)) l).*2 = takew g l.*2.
Proof. induction l as [|[x a] l IH]; cbn; [done|]. destruct (g a); cbn; [|done]. by f_equal. Qed.
Lemma dropw_fmap (g : A -> bool) (l : list (loc * A)) : (dropw (fun p => g (snd p)) l).*2 = dropw g l.*2.
Proof. induction l as [|[x a] l IH]; cbn; [done|]. by destruct (g a). Qed.
Lemma vals_insert x v t : srt (elems t) -> (elems (insert lt x v t)).*2 = place lt v (elems t).*2.
Proof.
  intros S. rewrite (elems_insert_sorted lt LT x v t S), place_split, fmap_app, fmap_cons.
  rewrite (takew_fmap (fun a => negb (lt v a))), (dropw_fmap (fun a => negb (lt v a))). done.
Qed.
Lemma absent_ok v t : srt (elems t) ->
  absent lt v (before (descend lt v t [])) = negb (existsb (same v) (elems t).*2).
Proof.
  intros S. destruct (descend_split lt v t []) as (k' & E1 & E2). rewrite app_nil_r in E1.
  destruct (descend_sorted lt LT v t [] S (List.Forall_nil _) (List.Forall_nil _)) as [HB HA]. rewrite E1 in *. clear E1.
  rewrite <- E2 in S |- *. rewrite fmap_app, existsb_app.
  assert (existsb (same v) (after k').*2 = false) as ->.
  { clear -HA. induction HA as [|p l Hp _ IH]; [done|]. cbn. rewrite (not_same_gt _ _ Hp). exact IH. }
  rewrite orb_false_r. unfold absent. apply srt_app in S as (S & _ & _).
  destruct (last (before k')) as [[x a]|] eqn:EL.
  - apply last_Some in EL as [L EL]. rewrite EL in *. rewrite fmap_app, existsb_app. cbn [fmap list_fmap existsb snd].
    apply Forall_app in HB as [_ HB]. apply Forall_cons in HB as [HB _]. cbn in HB.
    destruct (lt a v) eqn:E.
    + rewrite (not_same_lt _ _ E). rewrite !orb_false_r. symmetry. apply negb_true_iff.
      apply srt_app in S as (_ & _ & S). clear EL HB E2 HA. induction S as [|[y b] L0 Hp _ IH]; [done|]. cbn.
      apply Forall_cons in Hp as [Hp _]. unfold le2 in Hp. cbn in Hp. rewrite (not_same_lt v b); [cbn; apply IH; done|].
      by apply (down_lower lt LT v b a).
    + unfold RbSpec.same at 2. rewrite HB, E. cbn. by rewrite orb_true_r.
  - apply last_None in EL. by rewrite EL.
Qed.

(** the tree is all there is in the heap besides the cells [Fr] *)
Context {Fr : gmap loc (node A)}.
Record inv T s t : Prop := {
  i_hold : hold s (hd T) t;
  i_wf : wf s;
  i_srt : srt (elems t);
  i_ct : ct T = Z.of_nat (length (elems t));
  i_all : forall q, foot (hd T) t q = 0 -> cells s !! q = Fr !! q;
  i_apart : forall q, 0 < foot (hd T) t q -> Fr !! q = None
}.
Definition strict (l : list A) : Prop := StronglySorted (fun a b => lt a b = true) l.

Lemma frame_all H (s s' : heap) t t' x :
  (forall q, foot H t q = 0 -> cells s !! q = Fr !! q) ->
  (forall q, foot H t q = 0 -> q <> x -> cells s' !! q = cells s !! q) ->
  (forall q, foot H t' q = foot H t q + bit x q) ->
  forall q, foot H t' q = 0 -> cells s' !! q = Fr !! q.
Proof.
  intros I O F q Hq. rewrite F in Hq. destruct (decide (x = q)) as [->|N]; [rewrite bit_same in Hq; lia|].
  rewrite O by (done || lia). apply I. lia.
Qed.
Lemma frame_apart H (s : heap) t t' : wf s -> hold s H t ->
  (forall q, foot H t q = 0 -> cells s !! q = Fr !! q) -> (forall q, 0 < foot H t q -> Fr !! q = None) ->
  (forall q, foot H t' q = foot H t q + bit (made s) q) -> forall q, 0 < foot H t' q -> Fr !! q = None.
Proof.
  intros W Q I J F q Hq. rewrite F in Hq. destruct (decide (foot H t q = 0)) as [E|E]; [|apply J; lia].
  assert (made s = q) as <- by (apply bit_pos; lia). rewrite <- I by done. by apply W.
Qed.
Lemma foot_insert H x v t q : foot H (insert lt x v t) q = foot H t q + bit x q.
Proof.
  unfold foot, insert. rewrite cnt_paint, cnt_fixup. cbn [cnt].
  pose proof (cnt_plug E (descend lt v t []) q) as X. rewrite plug_descend in X. cbn [plug cnt] in X. lia.
Qed.
Lemma len_insert x v t : length (elems (insert lt x v t)) = S (length (elems t)).
Proof.
  rewrite elems_insert. destruct (descend_split lt v t []) as (k' & E1 & E2). rewrite app_nil_r in E1. rewrite E1, <- E2, !app_length. cbn. lia.
Qed.

Lemma add_multi T s t v fuel : inv T s t -> length (elems t) < fuel ->
  exists T' s' t', emplace_multi lt fuel T v s = Ok (made s, T', s') /\ hd T' = hd T /\ t' = insert lt (made s) v t /\ inv T' s' t'.
Proof.
  intros [Q W S C I J] Hf. destruct T as [H n]. cbn [hd ct] in *.
  destruct (emplace_multi_ok lt H s t v fuel n Q W Hf) as (s' & E & Q' & M & W' & O). eexists _, s', _. split; [exact E|]. split; [done|]. split; [done|].
  split; cbn [hd ct]; try done.
  - by apply srt_insert.
  - rewrite len_insert. lia.
  - apply (frame_all H s s' t _ (made s)); [done|done|apply foot_insert].
  - apply (frame_apart H s t); [done..|apply foot_insert].
Qed.
Lemma add_unique T s t v fuel : inv T s t -> length (elems t) < fuel ->
  if existsb (same v) (elems t).*2 then
    emplace_unique lt fuel T v s = Ok (pid (hd T) (descend lt v t []), false, T, {| cells := cells s; made := S (made s) |}) /\
      inv T {| cells := cells s; made := S (made s) |} t
  else exists T' s' t', emplace_unique lt fuel T v s = Ok (made s, true, T', s') /\ hd T' = hd T /\ t' = insert lt (made s) v t /\ inv T' s' t'.
Proof.
  intros [Q W S C I J] Hf. destruct T as [H n]. cbn [hd ct] in *.
  pose proof (emplace_unique_ok lt H s t v fuel n Q W Hf) as X. rewrite (absent_ok v t S) in X. destruct (existsb _ _); cbn [negb] in X.
  - split; [done|]. split; cbn [hd ct]; try done.
    + by apply (hold_frame s).
    + intros q Hq. cbn in *. apply W. lia.
  - destruct X as (s' & E & Q' & M & W' & O). eexists _, s', _. split; [exact E|]. split; [done|]. split; [done|]. split; cbn [hd ct]; try done.
    + by apply srt_insert.
    + rewrite len_insert. lia.
    + apply (frame_all H s s' t _ (made s)); [done|done|apply foot_insert].
    + apply (frame_apart H s t); [done..|apply foot_insert].
Qed.

Lemma srt_drop_mid (L M R : list (loc * A)) : srt (L ++ M ++ R) -> srt (L ++ R).
Proof.
  intros S. apply srt_app in S as (S1 & S2 & S3). apply srt_app in S2 as (_ & S2 & _). apply srt_app. split; [done|]. split; [done|].
  apply (Forall_impl _ _ _ S3). intros p Hp. apply Forall_app in Hp. tauto.
Qed.
(** one erase *)
Lemma erase_inv T s t fuel L x a R : inv T s t -> elems t = L ++ (x, a) :: R -> length (elems t) < fuel ->
  (exists T' s' t', erase fuel T x s = Ok (first (hd T) R, T', s') /\ hd T' = hd T /\ inv T' s' t' /\ elems t' = L ++ R /\ cells s' !! x = None /\
     (good t -> good t')) \/
  (erase fuel T x s = Fuel /\ ~ good t).
Proof.
  intros [Q W S C I J] E Hf. destruct T as [H n]. cbn [hd ct] in *.
  destruct (focus_split H s t L x a R Q E) as (c & l & r & k & -> & EL & ER).
  pose proof (erase_ok lt H fuel s n c l x a r k Q W Hf) as X. destruct (remove (RbPure.T c l x a r) k) as [t'|] eqn:Er.
  - destruct X as (s' & E1 & Q1 & M1 & W1 & D1 & F1 & O1). left. eexists _, s', t'. rewrite E1, <- ER. split; [done|]. split; [done|].
    pose proof (elems_remove _ _ _ _ _ _ _ Er) as E2. rewrite <- EL, <- ER in E2.
    split; [|split; [done|split; [done|]]].
    + split; cbn [hd ct]; try done.
      * rewrite E2. apply (srt_drop_mid L [(x, a)] R). cbn [app]. by rewrite <- E.
      * rewrite C, E, E2, !app_length. cbn [length]. lia.
      * intros q Hq. rewrite F1 in Hq. destruct (decide (x = q)) as [<-|N].
        { rewrite D1. symmetry. apply J. unfold foot. rewrite cnt_plug. cbn [cnt]. rewrite bit_same. lia. }
        rewrite (bit_ne _ _ N) in Hq. rewrite O1 by lia. apply I. lia.
      * intros q Hq. apply J. rewrite F1 in Hq. lia.
    + intros G. apply remove_good in G as (t0 & E3 & G). congruence.
  - right. split; [done|]. intros G. apply remove_good in G as (t0 & E3 & G). congruence.
Qed.
(** first, last and end() are told apart by their address *)
Lemma first_eq_begin s H t M R L : hold s H t -> elems t = L ++ M ++ R -> M ++ R <> [] -> first H (M ++ R) = first H (elems t) -> L = [].
Proof.
  intros Q E N F. destruct L as [|[x a] L]; [done|]. exfalso. rewrite E in F. cbn [app first] in F.
  apply hold_nodup, NoDup_cons in Q as [_ Q]. rewrite E in Q. cbn [app fmap list_fmap] in Q. apply NoDup_cons in Q as [Q _]. apply Q. cbn [fst].
  rewrite fmap_app. apply elem_of_app. right. destruct (first_in H _ N) as [b Hb]. rewrite F in Hb. apply elem_of_list_fmap. by exists (x, b).
Qed.
Lemma first_eq_end s H t M R : hold s H t -> elems t = M ++ R -> first H R = H -> R = [].
Proof.
  intros Q E F. destruct R as [|[x a] R]; [done|]. cbn in F. subst x. apply hold_nodup, NoDup_cons in Q as [Q _]. destruct Q.
  rewrite E, fmap_app. apply elem_of_app. right. left.
Qed.
Lemma first_ne s H t L x a M R : hold s H t -> elems t = L ++ (x, a) :: M ++ R -> x <> first H R.
Proof.
  intros Q E F. destruct R as [|[y b] R]; cbn in F; subst x.
  - by apply (first_not_head H s t L H a (M ++ [])) in Q.
  - apply hold_nodup, NoDup_cons in Q as [_ Q]. rewrite E, fmap_app in Q. apply NoDup_app in Q as (_ & _ & Q).
    cbn [fmap list_fmap] in Q. apply NoDup_cons in Q as [Q _]. apply Q. rewrite fmap_app. apply elem_of_app. right. left.
Qed.
Lemma range_loop fuel : forall M f T s t L R, inv T s t -> elems t = L ++ M ++ R -> length (elems t) < fuel -> length M <= f ->
  (exists T' s' t', erase_range_loop fuel f T (first (hd T) (M ++ R)) (first (hd T) R) s = Ok (T', s') /\ hd T' = hd T /\ inv T' s' t' /\ elems t' = L ++ R /\
     (good t -> good t')) \/
  (erase_range_loop fuel f T (first (hd T) (M ++ R)) (first (hd T) R) s = Fuel /\ ~ good t).
Proof.
  induction M as [|[x a] M IH]; intros f T s t L R I E Hf Hm.
  - left. exists T, s, t. cbn [app] in *. split; [|done]. destruct f; cbn [erase_range_loop]; by rewrite bool_decide_eq_true_2.
  - cbn [app length first] in *. destruct f as [|f]; [lia|]. cbn [erase_range_loop].
    rewrite bool_decide_eq_false_2 by (apply (first_ne s _ t L x a M R (i_hold _ _ _ I) E)).
    rewrite (inc_ok (hd T) fuel s t L x a (M ++ R) (i_hold _ _ _ I) E Hf). cbn [obind].
    destruct (erase_inv T s t fuel L x a (M ++ R) I E Hf) as [(T1 & s1 & t1 & E1 & H1 & I1 & F1 & D1 & G1)|[E1 G1]]; rewrite E1; cbn [obind]; [|by right].
    destruct (IH f T1 s1 t1 L R I1 F1) as [(T2 & s2 & t2 & E2 & H2 & I2 & F2 & G2)|[E2 G2]].
    { rewrite F1. rewrite E in Hf. rewrite !app_length in *. cbn [length] in *. rewrite app_length in Hf. lia. } { lia. }
    + rewrite H1 in E2. left. exists T2, s2, t2. rewrite E2. split; [done|]. split; [congruence|]. split; [done|]. split; [done|]. auto.
    + rewrite H1 in E2. right. rewrite E2. split; [done|]. auto.
Qed.
Lemma inv_new s : wf s -> Fr = cells s -> exists T s', tree_new s = Ok (T, s') /\ hd T = made s /\ made s' = S (made s) /\ inv T s' E.
Proof.
  intros W EF. eexists _, _. split.
  { unfold tree_new. cbv zeta. rewrite (set_lf_ok _ _ _ _ (lookup_insert _ _ _)). cbn [obind col lf rt pa vl].
    rewrite (set_rt_ok _ _ _ _ (put_same _ _ _)). cbn [obind]. reflexivity. }
  split; [done|]. split; [done|]. split; cbn [hd ct].
  - split; [|done]. split; try done.
    + cbn [repc]. apply put_same.
    + intros q. unfold foot. cbn. pose proof (bit_le (made s) q). lia.
  - intros q Hq. cbn in Hq. rewrite !put_ne by lia. cbn [cells]. rewrite lookup_insert_ne by lia. apply W. lia.
  - constructor.
  - done.
  - intros q Hq. unfold foot in Hq. assert (q <> made s) by (apply not_eq_sym, ne_of_bit; lia). rewrite !put_ne by done. cbn [cells].
    rewrite lookup_insert_ne by done. by rewrite EF.
  - intros q Hq. unfold foot in Hq. cbn [cnt] in Hq. assert (made s = q) as <- by (apply bit_pos; lia). rewrite EF. by apply W.
Qed.
Lemma clear_inv T s t fuel : inv T s t -> length (elems t) < fuel ->
  exists T' s', clear fuel T s = Ok (T', s') /\ hd T' = hd T /\ inv T' s' E.
Proof.
  intros [Q W S C I J] Hf. destruct T as [H n]. cbn [hd ct] in *.
  destruct (clear_ok lt H fuel s t n Q W Hf) as (s' & E & Q' & M & W' & D & O).
  { split; intros X; [|by subst]. destruct t; [done|]. cbn [elems] in C. rewrite app_length in C. cbn in C. lia. }
  eexists _, s'. split; [exact E|]. split; [done|]. split; cbn [hd ct]; try done; [constructor| |].
  - intros q Hq. unfold foot in *. cbn [cnt] in Hq. destruct (decide (0 < cnt t q)) as [Z|Z].
    + rewrite D by done. symmetry. apply J. lia.
    + rewrite O by lia. apply I. lia.
  - intros q Hq. apply J. unfold foot in *. cbn [cnt] in Hq. lia.
Qed.
Lemma range_inv T s t fuel L M R : inv T s t -> elems t = L ++ M ++ R -> length (elems t) < fuel ->
  (exists T' s' t', erase_range fuel T (first (hd T) (M ++ R)) (first (hd T) R) s = Ok (T', s') /\ hd T' = hd T /\ inv T' s' t' /\ elems t' = L ++ R /\
     (good t -> good t')) \/
  (erase_range fuel T (first (hd T) (M ++ R)) (first (hd T) R) s = Fuel /\ ~ good t).
Proof.
  intros I E Hf. unfold erase_range. rewrite (tbegin_ok (hd T) s t (i_hold _ _ _ I)). cbn [obind].
  destruct (bool_decide (first (hd T) (M ++ R) = _) && _) eqn:B.
  - apply andb_true_iff in B as [B1 B2]. apply bool_decide_eq_true in B1, B2.
    assert (R = []) as -> by (apply (first_eq_end s (hd T) t (L ++ M) R (i_hold _ _ _ I)); [by rewrite <- app_assoc|done]).
    assert (L = []) as ->.
    { rewrite app_nil_r in *. destruct M as [|p M].
      - rewrite app_nil_r in E. cbn in B1. rewrite E in B1. rewrite <- (app_nil_r L). rewrite app_nil_r.
        apply (first_eq_end s (hd T) t [] L (i_hold _ _ _ I)); [done|by symmetry].
      - apply (first_eq_begin s (hd T) t (p :: M) [] L (i_hold _ _ _ I)); by rewrite ?app_nil_r. }
    destruct (clear_inv T s t fuel I Hf) as (T' & s' & E1 & H1 & I1). left. exists T', s', RbPure.E. split; [done|]. split; [done|]. split; [done|]. split; [done|].
    intros _. exists 0. constructor.
  - apply range_loop; [done|done|done|]. rewrite E, !app_length in Hf. lia.
Qed.

Lemma advance_ok fuel s t H : hold s H t -> length (elems t) < fuel -> forall n L R, elems t = L ++ R -> n <= length R ->
  advance fuel n (first H R) s = Ok (first H (drop n R)).
Proof.
  intros Q Hf n. induction n as [|n IH]; intros L R E Hn; cbn [advance]; [by rewrite drop_0|].
  destruct R as [|[x a] R]; cbn [length] in Hn; [lia|]. cbn [first]. rewrite (inc_ok H fuel s t L x a R Q E Hf). cbn [obind drop].
  apply (IH (L ++ [(x, a)])); [by rewrite <- app_assoc|lia].
Qed.
Lemma nth_ok fuel T s t n : inv T s t -> length (elems t) < fuel -> n <= length (elems t) ->
  nth_it fuel n T s = Ok (first (hd T) (drop n (elems t))).
Proof.
  intros I Hf Hn. unfold nth_it. rewrite (tbegin_ok (hd T) s t (i_hold _ _ _ I)). cbn [obind].
  apply (advance_ok fuel s t (hd T) (i_hold _ _ _ I) Hf n [] (elems t)); done.
Qed.

Lemma same_lt_l a b c : same a b = true -> lt a c = lt b c.
Proof.
  intros X. unfold RbSpec.same in X. apply andb_true_iff in X as [X Y]. apply negb_true_iff in X, Y.
  destruct (lt a c) eqn:E1, (lt b c) eqn:E2; try done.
  - destruct (swo_neg _ LT _ _ b E1); congruence.
  - destruct (swo_neg _ LT _ _ a E2); congruence.
Qed.
(** in a strictly sorted list at most one element is like [k] *)
Lemma strict_mid (L M R : list A) k : strict (L ++ M ++ R) -> Forall (fun a => same k a = true) M -> length M <= 1.
Proof.
  intros S F. destruct M as [|a [|b M]]; cbn; [lia|lia|]. exfalso.
  assert (lt a b = true) as X.
  { clear F. induction L as [|c L IH]; cbn in S; apply StronglySorted_inv in S as [S F]; [|auto]. by apply Forall_cons in F as [F _]. }
  apply Forall_cons in F as [F1 F]. apply Forall_cons in F as [F2 _]. rewrite <- (same_lt_l k a b F1) in X. unfold RbSpec.same in F2. by rewrite X in F2.
Qed.
Lemma filter_split3 k (L M R : list A) : Forall (fun a => lt a k = true) L -> Forall (fun a => same k a = true) M -> Forall (fun a => lt k a = true) R ->
  List.filter (fun a => negb (same k a)) (L ++ M ++ R) = L ++ R.
Proof.
  intros F1 F2 F3. rewrite !List.filter_app. rewrite (filter_all _ L), (filter_none _ M), (filter_all _ R); [done| | |].
  - apply (Forall_impl _ _ _ F3). intros a Ha. by rewrite not_same_gt.
  - apply (Forall_impl _ _ _ F2). intros a Ha. by rewrite Ha.
  - apply (Forall_impl _ _ _ F1). intros a Ha. by rewrite not_same_lt.
Qed.

Definition fits (c : cmd) (l : list A) : Prop := match c with Add v => forall a, In a l -> lt v a = false | _ => True end.
Lemma del_key T s t fuel (u : bool) k : inv T s t -> (u = true -> strict (elems t).*2) -> length (elems t) < fuel ->
  (exists T' s' t', step lt fuel u (DelKey k) T s = Ok (T', s') /\ hd T' = hd T /\ inv T' s' t' /\
     (elems t').*2 = List.filter (fun a => negb (same k a)) (elems t).*2 /\ (good t -> good t')) \/
  (step lt fuel u (DelKey k) T s = Fuel /\ ~ good t).
Proof.
  intros I U Hf. pose proof (i_hold _ _ _ I) as Q. pose proof (i_srt _ _ _ I) as S.
  destruct (split3 k (elems t) S) as (L & M & R & E1 & E2 & E3 & F1 & F2 & F3).
  assert (List.filter (fun a => negb (same k a)) (elems t).*2 = (L ++ R).*2) as EF.
  { rewrite E1, !fmap_app. apply filter_split3; by apply Forall_fmap. }
  rewrite EF. cbn [step]. destruct u.
  - unfold erase_unique. rewrite (find_ok lt LT (hd T) fuel s t k Q S Hf). cbn [obind]. rewrite E2.
    destruct M as [|[x a] M].
    + cbn [app] in *. destruct R as [|[y b] R].
      * rewrite bool_decide_eq_true_2 by done. left. exists T, s, t. cbn [obind]. by rewrite E1.
      * apply Forall_cons in F3 as [F3 _]. cbn in F3. rewrite F3. rewrite bool_decide_eq_true_2 by done. left. exists T, s, t. cbn [obind]. by rewrite E1.
    + pose proof (Forall_inv F2) as Fa. unfold RbSpec.same in Fa. cbn in Fa. apply andb_true_iff in Fa as [Fa _]. apply negb_true_iff in Fa.
      cbn [app]. rewrite Fa. rewrite bool_decide_eq_false_2 by (apply (first_not_head (hd T) s t L x a (M ++ R) Q E1)).
      assert (M = []) as ->.
      { specialize (U eq_refl). rewrite E1, !fmap_app in U. apply (strict_mid _ _ _ k) in U; [|by apply Forall_fmap]. cbn in U. destruct M; [done|cbn in U; lia]. }
      cbn [app] in *. destruct (erase_inv T s t fuel L x a R I E1 Hf) as [(T' & s' & t' & E4 & H4 & I4 & F4 & _ & G4)|[E4 G4]]; rewrite E4; cbn [obind]; [|by right].
      left. exists T', s', t'. by rewrite F4.
  - unfold erase_multi, equal_range_multi. rewrite (lower_ok lt LT (hd T) fuel s t k Q S Hf). cbn [obind].
    rewrite (upper_ok lt LT (hd T) fuel s t k Q S Hf). cbn [obind]. rewrite E2, E3. unfold distance.
    rewrite (dist_ok (hd T) fuel s t Q Hf M fuel L R E1); cycle 1. { rewrite E1, !app_length in Hf. lia. } cbn [obind].
    destruct (range_inv T s t fuel L M R I E1 Hf) as [(T' & s' & t' & E4 & H4 & I4 & F4 & G4)|[E4 G4]]; rewrite E4; cbn [obind]; [|by right].
    left. exists T', s', t'. by rewrite F4.
Qed.
Lemma fmap_take_drop {B C} (g : B -> C) n m (l : list B) : g <$> (take n l ++ drop m l) = take n (g <$> l) ++ drop m (g <$> l).
Proof. by rewrite fmap_app, fmap_take, fmap_drop. Qed.

Lemma step_ok T s t fuel (u : bool) c : inv T s t -> (u = true -> strict (elems t).*2) -> length (elems t) < fuel ->
  (exists T' s' t', step lt fuel u c T s = Ok (T', s') /\ hd T' = hd T /\ inv T' s' t' /\ (elems t').*2 = effect lt u c (elems t).*2 /\
     (good t -> fits c (elems t).*2 -> good t')) \/
  (step lt fuel u c T s = Fuel /\ is_add c = false /\ ~ good t).
Proof.
  intros I U Hf. assert (ct T = Z.of_nat (length (elems t).*2)) as Hc by (rewrite fmap_length; apply (i_ct _ _ _ I)).
  rewrite fmap_length in Hc. pose proof (i_hold _ _ _ I) as Q. pose proof (i_srt _ _ _ I) as S.
  destruct c as [v|n|k|i j|]; cbn [effect fits is_add].
  - left. assert (forall x, good t -> (forall a, In a (elems t).*2 -> lt v a = false) -> good (insert lt x v t)) as G.
    { intros x G F. apply insert_good; [done|apply Q|]. apply Forall_forall. intros p Hp. apply F, elem_of_list_In, elem_of_list_fmap. eauto. }
    cbn [step add]. unfold add. destruct u; cbn [andb].
    + pose proof (add_unique T s t v fuel I Hf) as X. destruct (existsb (same v) (elems t).*2).
      * destruct X as [E1 I1]. rewrite E1. cbn [obind]. eexists _, _, t. done.
      * destruct X as (T' & s' & t' & E1 & H1 & -> & I1). rewrite E1. cbn [obind]. eexists _, _, _. split; [done|]. split; [done|]. split; [exact I1|].
        split; [by apply vals_insert|]. apply G.
    + destruct (add_multi T s t v fuel I Hf) as (T' & s' & t' & E1 & H1 & -> & I1). rewrite E1. cbn [obind]. eexists _, _, _. split; [done|]. split; [done|]. split; [exact I1|].
      split; [by apply vals_insert|]. apply G.
  - cbn [step]. destruct (Z.ltb_spec (Z.of_nat n) (ct T)) as [Hn|Hn].
    + rewrite (nth_ok fuel T s t n I Hf ltac:(lia)). cbn [obind].
      destruct (elems t !! n) as [[x a]|] eqn:En; cycle 1. { apply lookup_ge_None in En. lia. }
      rewrite (drop_S _ (x, a) _ En). cbn [first].
      destruct (erase_inv T s t fuel (take n (elems t)) x a (drop (Datatypes.S n) (elems t)) I (eq_sym (take_drop_middle _ _ _ En)) Hf)
        as [(T' & s' & t' & E4 & H4 & I4 & F4 & _ & G4)|[E4 G4]]; rewrite E4; cbn [obind]; [|by right].
      left. exists T', s', t'. split; [done|]. split; [done|]. split; [done|]. split; [by rewrite F4, fmap_take_drop|auto].
    + left. exists T, s, t. split; [done|]. split; [done|]. split; [done|]. split; [|auto].
      rewrite take_ge, drop_ge by (rewrite fmap_length; lia). by rewrite app_nil_r.
  - destruct (del_key T s t fuel u k I U Hf) as [(T' & s' & t' & E1 & H1 & I1 & F1 & G1)|[E1 G1]]; [left|by right].
    exists T', s', t'. auto 10.
  - cbn [step]. rewrite fmap_length. replace (Z.of_nat j <=? ct T)%Z with (j <=? length (elems t)) by lia.
    destruct ((i <=? j) && (j <=? length (elems t))) eqn:B; cycle 1.
    { left. exists T, s, t. auto 10. }
    assert (i <= j /\ j <= length (elems t)) as [B1 B2] by lia.
    rewrite (nth_ok fuel T s t i I Hf ltac:(lia)), (nth_ok fuel T s t j I Hf ltac:(lia)). cbn [obind].
    assert (elems t = take i (elems t) ++ take (j - i) (drop i (elems t)) ++ drop j (elems t)) as E0.
    { replace j with (i + (j - i)) at 2 by lia. rewrite <- drop_drop, take_drop. by rewrite take_drop. }
    assert (drop i (elems t) = take (j - i) (drop i (elems t)) ++ drop j (elems t)) as E0'.
    { replace j with (i + (j - i)) at 2 by lia. rewrite <- drop_drop. by rewrite take_drop. }
    rewrite E0'.
    destruct (range_inv T s t fuel _ _ _ I E0 Hf) as [(T' & s' & t' & E4 & H4 & I4 & F4 & G4)|[E4 G4]]; rewrite E4; [left|by right].
    exists T', s', t'. split; [done|]. split; [done|]. split; [done|]. split; [by rewrite F4, fmap_take_drop|auto].
  - left. destruct (clear_inv T s t fuel I Hf) as (T' & s' & E1 & H1 & I1). exists T', s', E. cbn [step]. split; [done|]. split; [done|]. split; [done|]. split; [done|].
    intros _ _. exists 0. constructor.
Qed.

(** set: the specification keeps the elements apart *)
Lemma strict_sv l : strict l -> sv l.
Proof.
  intros S. induction S as [|a l S IH F]; constructor; [done|]. apply (Forall_impl _ _ _ F). intros b Hb.
  destruct (lt b a) eqn:E; [|done]. pose proof (swo_trans _ LT _ _ _ Hb E) as X. by rewrite (swo_irr _ LT) in X.
Qed.
Lemma strict_app l l' : strict (l ++ l') <-> strict l /\ strict l' /\ Forall (fun a => Forall (fun b => lt a b = true) l') l.
Proof.
  unfold strict. induction l as [|x l IH]; cbn [app].
  - split; [|tauto]. intros X. split; [constructor|]. by split.
  - split.
    + intros X. apply StronglySorted_inv in X as [X Y]. apply IH in X as (X1 & X2 & X3). apply Forall_app in Y as [Y1 Y2].
      split; [by constructor|]. split; [done|]. by constructor.
    + intros (X & Y & Z). apply StronglySorted_inv in X as [X X']. apply Forall_cons in Z as [Z Z']. constructor; [by apply IH|].
      apply Forall_app. done.
Qed.
Lemma strict_sub n m l : n <= m -> strict l -> strict (take n l ++ drop m l).
Proof.
  intros Hn S. rewrite <- (take_drop n l) in S. apply strict_app in S as (S1 & S2 & S3).
  replace m with (n + (m - n)) by lia. rewrite <- drop_drop. rewrite <- (take_drop (m - n) (drop n l)) in S2, S3.
  apply strict_app in S2 as (_ & S2 & _). apply strict_app. split; [done|]. split; [done|]. apply (Forall_impl _ _ _ S3).
  intros a Ha. apply Forall_app in Ha. tauto.
Qed.
Lemma strict_place v l : strict l -> existsb (same v) l = false -> strict (place lt v l).
Proof.
  intros S. induction S as [|a l S IH F]; cbn [place existsb]; intros X.
  - constructor; constructor.
  - apply orb_false_iff in X as [X1 X2]. destruct (lt v a) eqn:E.
    + constructor; [by constructor|]. constructor; [done|]. apply (Forall_impl _ _ _ F). intros b Hb. by apply (swo_trans _ LT _ a).
    + constructor; [by apply IH|]. unfold RbSpec.same in X1. rewrite E in X1. cbn in X1. apply negb_false_iff in X1.
      clear -X1 F. induction F as [|b l Hb F IH]; cbn [place]; [by repeat constructor|]. destruct (lt v b); constructor; auto.
Qed.
Lemma strict_effect c l : strict l -> strict (effect lt true c l).
Proof.
  intros S. destruct c as [v|n|k|i j|]; cbn [effect andb].
  - destruct (existsb (same v) l) eqn:E; [done|]. by apply strict_place.
  - apply strict_sub; [lia|done].
  - induction S as [|a l S IH F]; [constructor|]. cbn [List.filter]. destruct (negb (same k a)); [|done]. constructor; [done|].
    apply Forall_forall. intros b Hb. apply elem_of_list_In, filter_In in Hb as [Hb _]. apply elem_of_list_In in Hb.
    exact (proj1 (Forall_forall _ _) F b Hb).
  - destruct ((i <=? j) && (j <=? length l)) eqn:B; [|done]. apply strict_sub; [lia|done].
  - constructor.
Qed.
Lemma filter_len {B} (g : B -> bool) l : length (List.filter g l) <= length l.
Proof. induction l as [|a l IH]; cbn; [done|]. destruct (g a); cbn; lia. Qed.
Lemma place_len v l : length (place lt v l) = S (length l).
Proof. induction l as [|a l IH]; cbn; [done|]. destruct (lt v a); cbn; congruence. Qed.
Lemma effect_len u c l : length (effect lt u c l) <= length l + (if is_add c then 1 else 0).
Proof.
  destruct c as [v|n|k|i j|]; cbn [effect is_add].
  - destruct (u && _); [lia|]. rewrite place_len. lia.
  - rewrite app_length, take_length, drop_length. lia.
  - pose proof (filter_len (fun a => negb (same k a)) l). lia.
  - destruct ((i <=? j) && (j <=? length l)) eqn:B; [|lia]. rewrite app_length, take_length, drop_length. lia.
  - cbn. lia.
Qed.

Lemma steps_ok fuel (u : bool) cs : forall T s t, inv T s t -> (u = true -> strict (elems t).*2) -> length (elems t) + adds cs < fuel ->
  (exists T' s' t', steps lt fuel u cs T s = Ok (T', s') /\ hd T' = hd T /\ inv T' s' t' /\ (u = true -> strict (elems t').*2) /\
     (elems t').*2 = effects lt u cs (elems t).*2 /\
     (good t -> appending lt u cs (elems t).*2 -> good t')) \/
  (steps lt fuel u cs T s = Fuel /\ forallb is_add cs = false /\ ~ (good t /\ appending lt u cs (elems t).*2)).
Proof.
  induction cs as [|c cs IH]; intros T s t I U Hf.
  - left. exists T, s, t. auto 10.
  - cbn [steps appending forallb]. unfold adds in Hf. cbn [List.filter] in Hf. destruct (step_ok T s t fuel u c I U) as [(T1 & s1 & t1 & E1 & H1 & I1 & F1 & G1)|(E1 & A1 & G1)].
    { destruct (is_add c); cbn in Hf; lia. }
    + rewrite E1. cbn [obind]. assert (u = true -> strict (elems t1).*2) as U1.
      { intros X. rewrite F1. rewrite X in *. by apply strict_effect, U. }
      destruct (IH T1 s1 t1 I1 U1) as [(T2 & s2 & t2 & E2 & H2 & I2 & U2 & F2 & G2)|(E2 & A2 & G2)].
      { pose proof (effect_len u c (elems t).*2) as X. rewrite <- F1, !fmap_length in X. unfold adds. destruct (is_add c); cbn in Hf; lia. }
      * left. exists T2, s2, t2. rewrite E2. split; [done|]. split; [congruence|]. split; [done|]. split; [done|]. split.
        { rewrite F2, F1. done. }
        intros G [Ap1 Ap2]. apply G2; [|by rewrite F1]. apply G1; [done|]. by destruct c.
      * right. rewrite E2. split; [done|]. split; [rewrite A2; apply andb_false_r|]. intros [G [Ap1 Ap2]]. apply G2. split; [|by rewrite F1].
        apply G1; [done|]. by destruct c.
    + right. rewrite E1. split; [done|]. rewrite A1. split; [done|]. tauto.
Qed.
End hist.

Section run.
Context {A : Type} (lt : A -> A -> bool) (LT : swo lt).
Lemma inv_only T (s : heap A) t q : inv lt (Fr := ∅) T s t -> is_Some (cells s !! q) -> 0 < foot (hd T) t q.
Proof.
  intros I Hq. destruct (decide (foot (hd T) t q = 0)) as [E|E]; [|lia]. rewrite (i_all _ _ _ _ I q E), lookup_empty in Hq. by destruct Hq.
Qed.
Lemma run_ok fuel (u : bool) cs : adds cs < fuel ->
  (exists T s t, run lt fuel u cs = Ok (T, s) /\ inv lt (Fr := ∅) T s t /\ (u = true -> strict lt (elems t).*2) /\
     (elems t).*2 = effects lt u cs [] /\ (appending lt u cs [] -> good t)) \/
  (run lt fuel u cs = Fuel /\ forallb is_add cs = false /\ ~ appending lt u cs []).
Proof.
  intros Hf. destruct (inv_new lt (Fr := ∅) (no_heap (A := A))) as (T0 & s0 & E0 & _ & _ & I0); [done|done|]. unfold run. rewrite E0. cbn [obind].
  assert (good (E : tr A)) as GE by (exists 0; constructor).
  destruct (steps_ok lt LT fuel u cs T0 s0 E I0) as [(T & s & t & E1 & _ & I1 & U1 & F1 & G1)|(E1 & A1 & G1)].
  { intros _. constructor. } { cbn. lia. }
  - left. exists T, s, t. split; [done|]. split; [done|]. split; [done|]. split; [done|]. auto.
  - right. split; [done|]. split; [done|]. intros X. apply G1. auto.
Qed.
End run.
