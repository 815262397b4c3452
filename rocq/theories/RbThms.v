(** The statements about set and multiset, from the representation of the tree in the heap. *)
From stdpp Require Import gmap list sorting.
From Coq Require Import ZArith Lia ZifyBool ZifyNat ZifyN.
From Verif Require Import Base RbModel RbPure RbHeap RbInsert RbErase RbUnlink RbOps RbSearch RbAdd RbDel RbBalance RbSpec RbRun RbHist.
Local Open Scope outcome_scope.

Section thms.
Context {A : Type} (lt : A -> A -> bool) (WO : weak_order lt).
Notation tr := (tr A).
Notation heap := (heap A).
Notation cmd := (cmd (A := A)).
Implicit Types (s : heap) (t : tr) (T : tree).
Notation srt := (StronglySorted (le2 lt)).
Notation sv := (StronglySorted (fun a b => lt b a = false)).
Notation same := (same lt).
Let LT : swo lt := swo_of lt WO.

Lemma sorted_lookup {B} (R : B -> B -> Prop) l : StronglySorted R l <->
  forall i j a b, l !! i = Some a -> l !! j = Some b -> i < j -> R a b.
Proof.
  split.
  - intros S. induction S as [|x l S IH F]; intros i j a b Hi Hj Hij; [done|]. destruct j as [|j]; [lia|]. destruct i as [|i]; cbn in *.
    + injection Hi as ->. rewrite Forall_lookup in F. by apply (F j).
    + apply (IH i j); try done. lia.
  - induction l as [|x l IH]; intros X; [constructor|]. constructor.
    + apply IH. intros i j a b Hi Hj Hij. apply (X (S i) (S j)); try done. lia.
    + apply Forall_lookup. intros j b Hj. apply (X 0 (S j)); try done. lia.
Qed.

Lemma effects_len u cs : forall l, length (effects lt u cs l) <= length l + adds cs.
Proof.
  induction cs as [|c cs IH]; intros l; [cbn; lia|]. pose proof (effect_len lt u c l) as Z. specialize (IH (effect lt u c l)).
  change (effects lt u (c :: cs) l) with (effects lt u cs (effect lt u c l)).
  assert (adds (c :: cs) = (if is_add c then 1 else 0) + adds cs) as -> by (unfold adds; cbn; by destruct (is_add c)). lia.
Qed.
(** a program that ran *)
Lemma reach fuel0 u cs T s : run lt fuel0 u cs = Ok (T, s) -> adds cs < fuel0 ->
  exists t, inv lt (Fr := ∅) T s t /\ (u = true -> strict lt (elems t).*2) /\ (elems t).*2 = effects lt u cs [] /\ (appending lt u cs [] -> good t).
Proof.
  intros E Hf. destruct (run_ok lt LT fuel0 u cs Hf) as [(T' & s' & t & E1 & X)|[E1 _]]; rewrite E in E1; [|done].
  injection E1 as <- <-. eauto.
Qed.

(** * C22 *)
Lemma like_place k v l : sv l -> like lt k (place lt v l) = like lt k l ++ like lt k [v].
Proof.
  intros S. unfold like. rewrite place_split. rewrite List.filter_app. rewrite <- (takew_dropw (fun a => negb (lt v a)) l) at 3.
  rewrite List.filter_app, <- app_assoc. f_equal. change (v :: dropw (fun a => negb (lt v a)) l) with ([v] ++ dropw (fun a => negb (lt v a)) l).
  rewrite List.filter_app. cbn [List.filter]. destruct (same k v) eqn:E; [|by rewrite app_nil_r].
  assert (List.filter (same k) (dropw (fun a => negb (lt v a)) l) = []) as ->; [|done].
  apply filter_none. rewrite <- (takew_dropw (fun a => negb (lt v a)) l) in S. apply sv_app in S as (_ & S & _).
  assert (match dropw (fun a => negb (lt v a)) l with a :: _ => lt v a = true | [] => True end) as Hh.
  { clear. induction l as [|a l IH]; cbn; [done|]. destruct (lt v a) eqn:E; cbn; [done|exact IH]. }
  destruct S as [|a l' S F]; [constructor|]. apply Forall_forall. intros b Hb. apply not_same_gt. rewrite (same_lt_l lt LT k v b E).
  rewrite elem_of_cons in Hb. destruct Hb as [->|Hb]; [done|]. rewrite Forall_forall in F. specialize (F b Hb).
  destruct (swo_neg _ LT _ _ b Hh); congruence.
Qed.
Lemma sv_place v l : sv l -> sv (place lt v l).
Proof.
  intros S. induction S as [|a l S IH F]; cbn [place].
  - constructor; constructor.
  - assert (forall b, lt v b = true -> lt b v = false) as As.
    { intros b Hb. destruct (lt b v) eqn:E; [|done]. pose proof (swo_trans _ LT _ _ _ Hb E) as X. by rewrite (swo_irr _ LT) in X. }
    destruct (lt v a) eqn:E.
    + constructor; [by constructor|]. constructor; [by apply As|]. apply (Forall_impl _ _ _ F). intros b Hb.
      destruct (swo_neg _ LT _ _ b E) as [X|X]; [by apply As|congruence].
    + constructor; [done|]. clear -E F. induction F as [|b l Hb F IH]; cbn [place]; [by constructor|]. destruct (lt v b); constructor; auto.
Qed.
Lemma place_perm v l : place lt v l ≡ₚ v :: l.
Proof. induction l as [|a l IH]; cbn; [done|]. destruct (lt v a); [done|]. rewrite IH. apply perm_swap. Qed.
Lemma effects_multi vs : forall l, sv l ->
  sv (effects lt false (Add <$> vs) l) /\ (forall k, like lt k (effects lt false (Add <$> vs) l) = like lt k l ++ like lt k vs) /\
  effects lt false (Add <$> vs) l ≡ₚ l ++ vs.
Proof.
  induction vs as [|v vs IH]; intros l S.
  - cbn. split; [done|]. split; [intros k; by rewrite app_nil_r|by rewrite app_nil_r].
  - destruct (IH (place lt v l) (sv_place v l S)) as (H1 & H2 & H3).
    cbn [fmap list_fmap effects fold_left effect andb]. fold (effects lt false (Add <$> vs) (place lt v l)). split; [done|]. split.
    + intros k. rewrite H2, (like_place k v l S), <- app_assoc. f_equal. unfold like. cbn. by destruct (same k v).
    + rewrite H3, place_perm. cbn [app]. by rewrite Permutation_middle.
Qed.
Lemma like_strict l k : strict lt l -> length (like lt k l) <= 1.
Proof.
  intros S. destruct (sv_split3 lt LT k l (strict_sv lt LT l S)) as (L & M & R & -> & F1 & F2 & F3). unfold like.
  rewrite !List.filter_app, (filter_none _ L), (filter_all _ M), (filter_none _ R).
  - rewrite app_nil_r. cbn. by apply (strict_mid lt LT L M R k).
  - apply (Forall_impl _ _ _ F3). intros a. apply not_same_gt.
  - done.
  - apply (Forall_impl _ _ _ F1). intros a. apply not_same_lt.
Qed.
Lemma existsb_like v l : existsb (same v) l = match like lt v l with [] => false | _ => true end.
Proof. unfold like. induction l as [|a l IH]; cbn; [done|]. destruct (same v a); [done|]. exact IH. Qed.
Lemma same_like k v l : same k v = true -> like lt k l = like lt v l.
Proof.
  intros E. unfold like. apply List.filter_ext. intros a. unfold RbSpec.same. rewrite (same_lt_l lt LT k v a E). f_equal. f_equal.
  unfold RbSpec.same in E. apply andb_true_iff in E as [E1 E2]. apply negb_true_iff in E1, E2.
  destruct (lt a k) eqn:X1, (lt a v) eqn:X2; try done.
  - destruct (swo_neg _ LT _ _ v X1); congruence.
  - destruct (swo_neg _ LT _ _ k X2); congruence.
Qed.
Lemma effects_unique vs : forall l, strict lt l ->
  strict lt (effects lt true (Add <$> vs) l) /\ (forall k, like lt k (effects lt true (Add <$> vs) l) = take 1 (like lt k (l ++ vs))).
Proof.
  induction vs as [|v vs IH]; intros l S.
  - cbn. split; [done|]. intros k. rewrite app_nil_r, take_ge; [done|]. by apply like_strict.
  - pose proof (strict_effect lt LT (Add v) l S) as S'. cbn [effect andb] in S'. destruct (IH _ S') as (H1 & H2).
    cbn [fmap list_fmap effects fold_left effect andb]. fold (effects lt true (Add <$> vs)). split; [done|].
    intros k. rewrite H2. unfold like. rewrite !List.filter_app. fold (like lt k). cbn [List.filter]. fold (like lt k l).
    fold (like lt k (if existsb (same v) l then l else place lt v l)). pose proof (existsb_like v l) as X.
    destruct (existsb (same v) l) eqn:E.
    + destruct (same k v) eqn:Ek; [|done]. rewrite <- (same_like k v l Ek) in X. by destruct (like lt k l).
    + rewrite (like_place k v l (strict_sv lt LT l S)), <- app_assoc. unfold like at 2. cbn. by destruct (same k v).
Qed.
Lemma adds_add (vs : list A) : adds (Add <$> vs) = length vs.
Proof. unfold adds. induction vs as [|v vs IH]; cbn; [done|]. by rewrite IH. Qed.
Lemma all_add (vs : list A) : forallb is_add (Add <$> vs) = true.
Proof. by induction vs. Qed.

Theorem iterate_multi fuel vs : length vs < fuel ->
  exists T s l, run lt fuel false (Add <$> vs) = Ok (T, s) /\
    forward fuel (hd T) s = Ok l /\ backward fuel (hd T) s = Ok (rev l) /\ ct T = Z.of_nat (length vs) /\
    in_order lt l.*2 /\ (forall k, like lt k l.*2 = like lt k vs) /\ l.*2 ≡ₚ vs.
Proof.
  intros Hf. destruct (run_ok lt LT fuel false (Add <$> vs)) as [(T & s & t & E1 & I & _ & F & _)|(_ & X & _)].
  { by rewrite adds_add. } 2: { by rewrite all_add in X. }
  destruct (effects_multi vs [] ltac:(constructor)) as (H1 & H2 & H3). rewrite <- F in H1, H2, H3. cbn [app like List.filter] in *.
  assert (length (elems t) = length vs) as Hl by (rewrite <- (fmap_length snd), H3; done).
  exists T, s, (elems t). split; [done|]. pose proof (i_hold _ _ _ _ I) as Q.
  rewrite (forward_ok (hd T) fuel s t Q) by lia. rewrite (backward_ok (hd T) fuel s t Q) by lia.
  split; [done|]. split; [done|]. split; [rewrite (i_ct _ _ _ _ I); lia|]. split; [|done].
  intros i j a b. apply (proj1 (sorted_lookup _ _) H1).
Qed.
Theorem iterate_unique fuel vs : length vs < fuel ->
  exists T s l, run lt fuel true (Add <$> vs) = Ok (T, s) /\
    forward fuel (hd T) s = Ok l /\ backward fuel (hd T) s = Ok (rev l) /\ ct T = Z.of_nat (length l) /\
    strictly_in_order lt l.*2 /\ (forall k, like lt k l.*2 = take 1 (like lt k vs)).
Proof.
  intros Hf. destruct (run_ok lt LT fuel true (Add <$> vs)) as [(T & s & t & E1 & I & U & F & _)|(_ & X & _)].
  { by rewrite adds_add. } 2: { by rewrite all_add in X. }
  destruct (effects_unique vs [] ltac:(constructor)) as (H1 & H2). rewrite <- F in H1, H2. cbn [app] in *.
  assert (length (elems t) <= length vs) as Hl.
  { rewrite <- (fmap_length snd), F. pose proof (effects_len true (Add <$> vs) []) as X. rewrite adds_add in X. done. }
  exists T, s, (elems t). split; [done|]. pose proof (i_hold _ _ _ _ I) as Q.
  rewrite (forward_ok (hd T) fuel s t Q) by lia. rewrite (backward_ok (hd T) fuel s t Q) by lia.
  split; [done|]. split; [done|]. split; [apply (i_ct _ _ _ _ I)|]. split; [|done].
  intros i j a b. apply (proj1 (sorted_lookup _ _) H1).
Qed.

(** * C23 *)
Lemma scan_app (g : A -> bool) d L R : Forall (fun p => g (snd p) = false) L -> scan g d (L ++ R) = scan g d R.
Proof. intros F. unfold scan. induction F as [|p L Hp _ IH]; cbn; [done|]. by rewrite Hp. Qed.
Lemma scan_hit (g : A -> bool) d R : match R with p :: _ => g (snd p) = true | [] => True end -> scan g d R = first d R.
Proof. destruct R as [|[x a] R]; [done|]. unfold scan. cbn. by intros ->. Qed.
Lemma scan_dropw (g : A -> bool) d l : scan g d l = first d (dropw (fun p => negb (g (snd p))) l).
Proof. induction l as [|[x a] l IH]; [done|]. unfold scan in *. cbn. destruct (g a); cbn; [done|]. exact IH. Qed.
Lemma head_F {B} (P : B -> Prop) l : Forall P l -> match l with x :: _ => P x | [] => True end.
Proof. by destruct 1. Qed.

Theorem searches fuel0 u cs T s fuel k : run lt fuel0 u cs = Ok (T, s) -> adds cs < fuel0 -> adds cs < fuel ->
  exists l, forward fuel (hd T) s = Ok l /\
    lower_bound lt fuel (hd T) k s = Ok (scan (fun a => negb (lt a k)) (hd T) l) /\
    upper_bound lt fuel (hd T) k s = Ok (scan (lt k) (hd T) l) /\
    find lt fuel (hd T) k s = Ok (scan (same k) (hd T) l) /\
    equal_range_multi lt fuel (hd T) k s = Ok (scan (fun a => negb (lt a k)) (hd T) l, scan (lt k) (hd T) l) /\
    count_multi lt fuel (hd T) k s = Ok (Z.of_nat (length (like lt k l.*2))) /\
    (u = true ->
      count_unique lt fuel (hd T) k s = Ok (Z.of_nat (length (like lt k l.*2))) /\
      equal_range_unique lt fuel (hd T) k s =
        Ok (scan (same k) (hd T) l, if existsb (same k) l.*2 then scan (lt k) (hd T) l else hd T)).
Proof.
  intros E Hf0 Hf. destruct (reach fuel0 u cs T s E Hf0) as (t & I & U & F & _).
  assert (length (elems t) <= adds cs) as Hl.
  { rewrite <- (fmap_length snd), F. apply (effects_len u cs []). }
  pose proof (i_hold _ _ _ _ I) as Q. pose proof (i_srt _ _ _ _ I) as S. assert (length (elems t) < fuel) as Hf' by lia.
  exists (elems t). split; [by apply forward_ok|].
  destruct (split3 lt LT k (elems t) S) as (L & M & R & E1 & E2 & E3 & F1 & F2 & F3).
  pose proof (lower_ok lt LT (hd T) fuel s t k Q S Hf') as HL. pose proof (upper_ok lt LT (hd T) fuel s t k Q S Hf') as HU.
  pose proof (find_ok lt LT (hd T) fuel s t k Q S Hf') as HF. rewrite E2 in HL, HF. rewrite E3 in HU.
  assert (scan (fun a => negb (lt a k)) (hd T) (elems t) = first (hd T) (M ++ R)) as S1.
  { rewrite scan_dropw, <- E2. f_equal. clear. induction (elems t) as [|p l IH]; cbn; [done|]. rewrite negb_involutive, IH. done. }
  assert (scan (lt k) (hd T) (elems t) = first (hd T) R) as S2 by (by rewrite scan_dropw, <- E3).
  assert (Forall (fun p => same k p.2 = false) L) as NL by (apply (Forall_impl _ _ _ F1); intros p; apply not_same_lt).
  assert (Forall (fun p => same k p.2 = false) R) as NR by (apply (Forall_impl _ _ _ F3); intros p; apply not_same_gt).
  assert (scan (same k) (hd T) (elems t) = match M with (x, _) :: _ => x | [] => hd T end) as S3.
  { rewrite E1, scan_app by done. destruct M as [|[x a] M].
    - cbn [app]. rewrite <- (app_nil_r R), scan_app by done. done.
    - rewrite scan_hit; [done|]. cbn. apply Forall_cons in F2. tauto. }
  assert (like lt k (elems t).*2 = M.*2) as EM.
  { unfold like. rewrite E1, !fmap_app, !List.filter_app. rewrite (filter_none _ L.*2), (filter_all _ M.*2), (filter_none _ R.*2) by (by apply Forall_fmap).
    cbn. by rewrite app_nil_r. }
  assert (find lt fuel (hd T) k s = Ok (match M with (x, _) :: _ => x | [] => hd T end)) as HF'.
  { rewrite HF. f_equal. destruct M as [|[x a] M]; cbn [app].
    - destruct R as [|[y b] R]; [done|]. apply Forall_cons in F3 as [F3 _]. cbn in F3. by rewrite F3.
    - apply Forall_cons in F2 as [F2 _]. unfold RbSpec.same in F2. cbn in F2. by destruct (lt k a). }
  rewrite S1, S2, S3, EM. split; [done|]. split; [done|]. split; [done|].
  assert (equal_range_multi lt fuel (hd T) k s = Ok (first (hd T) (M ++ R), first (hd T) R)) as HE.
  { unfold equal_range_multi. rewrite HL. cbn [obind]. rewrite HU. done. }
  split; [done|]. split.
  { unfold count_multi. rewrite HE. cbn [obind]. unfold distance. rewrite fmap_length. apply (dist_ok (hd T) fuel s t Q Hf' M fuel L R E1).
    rewrite E1, !app_length in Hf'. lia. }
  intros Hu. specialize (U Hu). rewrite E1, !fmap_app in U. pose proof (strict_mid lt LT L.*2 M.*2 R.*2 k U) as HM.
  rewrite fmap_length in HM. specialize (HM ltac:(by apply Forall_fmap)).
  unfold count_unique, equal_range_unique. rewrite HF'. cbn [obind]. rewrite existsb_like, EM.
  destruct M as [|[x a] [|q M]]; [| |cbn in HM; lia].
  - rewrite bool_decide_eq_true_2 by done. done.
  - cbn [fmap list_fmap length]. cbn [app] in E1. rewrite bool_decide_eq_false_2 by (apply (first_not_head (hd T) s t L x a R Q E1)).
    split; [done|]. rewrite (inc_ok (hd T) fuel s t L x a R Q E1 Hf'). done.
Qed.

(** * C27 *)
Theorem neighbours fuel0 u cs T s fuel : run lt fuel0 u cs = Ok (T, s) -> adds cs < fuel0 -> adds cs < fuel ->
  exists l, forward fuel (hd T) s = Ok l /\
    let at_ i := match l !! i with Some (x, _) => x | None => hd T end in
    tbegin (hd T) s = Ok (at_ 0) /\
    forall i, i < length l ->
      increment fuel (at_ i) s = Ok (at_ (S i)) /\ decrement fuel (at_ (S i)) s = Ok (at_ i) /\ at_ i <> hd T.
Proof.
  intros E Hf0 Hf. destruct (reach fuel0 u cs T s E Hf0) as (t & I & U & F & _).
  assert (length (elems t) <= adds cs) as Hl.
  { rewrite <- (fmap_length snd), F. apply (effects_len u cs []). }
  pose proof (i_hold _ _ _ _ I) as Q. assert (length (elems t) < fuel) as Hf' by lia.
  exists (elems t). split; [by apply forward_ok|]. intros at_.
  assert (forall i, at_ i = first (hd T) (drop i (elems t))) as HA.
  { intros i. unfold at_. destruct (elems t !! i) as [[x a]|] eqn:Ei.
    - by rewrite (drop_S _ _ _ Ei).
    - apply lookup_ge_None in Ei. by rewrite drop_ge. }
  split; [rewrite (tbegin_ok (hd T) s t Q), HA; by rewrite drop_0|].
  intros i Hi. destruct (elems t !! i) as [[x a]|] eqn:Ei; [|apply lookup_ge_None in Ei; lia].
  pose proof (eq_sym (take_drop_middle _ _ _ Ei)) as Ed.
  assert (at_ i = x) as -> by (unfold at_; by rewrite Ei). rewrite HA.
  split; [by apply (inc_ok (hd T) fuel s t (take i (elems t)) x a)|]. split; [|by apply (first_not_head (hd T) s t (take i (elems t)) x a (drop (S i) (elems t)))].
  destruct (drop (S i) (elems t)) as [|[y b] R] eqn:Er; cbn [first].
  - rewrite (decrement_end (hd T) fuel s t Q) by (intros ->; done). rewrite Ed. by rewrite final_snoc.
  - change ((x, a) :: (y, b) :: R) with ([(x, a)] ++ (y, b) :: R) in Ed. rewrite app_assoc in Ed.
    rewrite (dec_ok (hd T) fuel s t (take i (elems t) ++ [(x, a)]) y b R Q Ed Hf').
    + by rewrite final_snoc.
    + intros X. by apply app_eq_nil in X as [_ X].
Qed.
End thms.
