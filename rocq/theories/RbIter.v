(** Iterators into a set or multiset: programs that keep some do what the specification gives. *)
From stdpp Require Import gmap list sorting.
From Coq Require Import ZArith Lia ZifyBool ZifyNat ZifyN.
From Verif Require Import Base RbModel RbPure RbHeap RbInsert RbErase RbUnlink RbOps RbSearch RbAdd RbDel RbBalance RbSpec RbRun RbHist RbThms RbIterModel RbIterSpec.
Local Open Scope outcome_scope.

Section iter.
Context {A : Type} (lt : A -> A -> bool) (WO : weak_order lt).
Notation tr := (tr A).
Notation heap := (heap A).
Notation seq := (list (nat * A)).
Implicit Types (s : heap) (t : tr) (T : tree) (w : world A) (l : seq).
Notation srt := (StronglySorted (le2 lt)).
Notation same := (same lt).
Notation inv := (inv lt (Fr := ∅)).
Let LT : swo lt := swo_of lt WO.

(** * positions *)
Lemma index_some k l p : index k l = Some p -> exists v, l !! p = Some (k, v).
Proof.
  revert p. induction l as [|[x a] l IH]; intros p; cbn; [done|]. destruct (Nat.eqb_spec x k) as [->|N].
  - intros [= <-]. by exists a.
  - destruct (index k l) as [q|]; cbn; [|done]. intros [= <-]. cbn. by apply IH.
Qed.
Lemma index_none k l : index k l = None <-> k ∉ l.*1.
Proof.
  induction l as [|[x a] l IH]; cbn.
  - split; [intros _; apply not_elem_of_nil|done].
  - rewrite not_elem_of_cons. destruct (Nat.eqb_spec x k) as [->|N].
    + split; [done|]. by intros [? _].
    + destruct (index k l) as [q|]; cbn; split; try done.
      * intros [_ X]. by apply IH in X.
      * intros _. split; [congruence|]. by apply IH.
Qed.
Lemma first_drop (d : loc) l p : first d (drop p l) = default d (mark_of l p).
Proof.
  unfold mark_of. revert l. induction p as [|p IH]; intros [|[x a] l]; cbn; try done.
Qed.
Lemma posn_first (d : loc) l m p : posn l m = Some p -> default d m = first d (drop p l) /\ p <= length l.
Proof.
  destruct m as [k|]; cbn [posn].
  - intros X. destruct (index_some _ _ _ X) as [v E]. rewrite first_drop. unfold mark_of. rewrite E. split; [done|].
    apply lookup_lt_Some in E. lia.
  - intros [= <-]. by rewrite drop_all.
Qed.
Lemma seek_scan (g : A -> bool) (d : loc) l : default d (seek g l) = scan g d l.
Proof. unfold seek, scan. by destruct (List.find _ l) as [[x a]|]. Qed.
Lemma splace_split x v l : splace lt x v l = takew (fun p => negb (lt v (snd p))) l ++ (x, v) :: dropw (fun p => negb (lt v (snd p))) l.
Proof. induction l as [|p l IH]; cbn; [done|]. destruct (lt v (snd p)); cbn; [done|]. by rewrite IH. Qed.
Lemma splace_vals x v l : (splace lt x v l).*2 = place lt v l.*2.
Proof. induction l as [|p l IH]; cbn; [done|]. destruct (lt v (snd p)); cbn; [done|]. by rewrite IH. Qed.
Lemma splace_in x v l p : p ∈ splace lt x v l <-> p = (x, v) \/ p ∈ l.
Proof.
  induction l as [|q l IH]; cbn; [by rewrite elem_of_list_singleton, elem_of_nil; naive_solver|].
  destruct (lt v (snd q)); rewrite !elem_of_cons, ?IH, ?elem_of_cons; naive_solver.
Qed.
Lemma filter_vals (g : A -> bool) l : (List.filter (fun p => g (snd p)) l).*2 = List.filter g l.*2.
Proof. induction l as [|p l IH]; cbn; [done|]. destruct (g (snd p)); cbn; by rewrite IH. Qed.

(** * numbers of nodes made *)
Lemma erase_made T s t fuel L x a R y T' s' : inv T s t -> elems t = L ++ (x, a) :: R -> length (elems t) < fuel ->
  erase fuel T x s = Ok (y, T', s') -> made s' = made s.
Proof.
  intros [Q W S C I J] E Hf X. destruct T as [H n]. cbn [hd ct] in *.
  destruct (focus_split H s t L x a R Q E) as (c & l & r & k & -> & EL & ER).
  pose proof (erase_ok lt H fuel s n c l x a r k Q W Hf) as Y. destruct (remove (RbPure.T c l x a r) k) as [t'|].
  - destruct Y as (s1 & E1 & _ & M & _). congruence.
  - congruence.
Qed.
Lemma clear_made T s t fuel T' s' : inv T s t -> length (elems t) < fuel -> clear fuel T s = Ok (T', s') -> made s' = made s.
Proof.
  intros [Q W S C I J] Hf X. destruct T as [H n]. cbn [hd ct] in *.
  destruct (clear_ok lt H fuel s t n Q W Hf) as (s1 & E1 & _ & M & _); [|congruence].
  split; intros Y; [|by subst]. destruct t; [done|]. cbn [elems] in C. rewrite app_length in C. cbn in C. lia.
Qed.
Lemma loop_made fuel : forall M f T s t L R T' s', inv T s t -> elems t = L ++ M ++ R -> length (elems t) < fuel -> length M <= f ->
  erase_range_loop fuel f T (first (hd T) (M ++ R)) (first (hd T) R) s = Ok (T', s') -> made s' = made s.
Proof.
  induction M as [|[x a] M IH]; intros f T s t L R T' s' I E Hf Hm X.
  - cbn [app] in X. destruct f; cbn [erase_range_loop] in X; rewrite bool_decide_eq_true_2 in X by done; congruence.
  - cbn [app length first] in *. destruct f as [|f]; [lia|]. cbn [erase_range_loop] in X.
    rewrite bool_decide_eq_false_2 in X by (apply (first_ne s _ t L x a M R (i_hold _ _ _ _ I) E)).
    rewrite (inc_ok (hd T) fuel s t L x a (M ++ R) (i_hold _ _ _ _ I) E Hf) in X. cbn [obind] in X.
    destruct (erase_inv lt T s t fuel L x a (M ++ R) I E Hf) as [(T1 & s1 & t1 & E1 & H1 & I1 & F1 & _)|[E1 _]]; rewrite E1 in X; cbn [obind] in X; [|done].
    rewrite <- H1 in X. rewrite <- (erase_made T s t fuel L x a (M ++ R) _ _ _ I E Hf E1). apply (IH f T1 s1 t1 L R T' s'); try done; [|lia].
    rewrite F1. rewrite E in Hf. rewrite !app_length in *. cbn [length] in *. rewrite app_length in Hf. lia.
Qed.
Lemma range_made T s t fuel L M R T' s' : inv T s t -> elems t = L ++ M ++ R -> length (elems t) < fuel ->
  erase_range fuel T (first (hd T) (M ++ R)) (first (hd T) R) s = Ok (T', s') -> made s' = made s.
Proof.
  intros I E Hf X. unfold erase_range in X. rewrite (tbegin_ok (hd T) s t (i_hold _ _ _ _ I)) in X. cbn [obind] in X.
  destruct (bool_decide (first (hd T) (M ++ R) = _) && _).
  - by apply (clear_made T s t fuel T' s').
  - apply (loop_made fuel M fuel T s t L R T' s'); try done. rewrite E, !app_length in Hf. lia.
Qed.
Lemma multi_made T s t v fuel x T' s' : inv T s t -> length (elems t) < fuel -> emplace_multi lt fuel T v s = Ok (x, T', s') -> made s' = S (made s).
Proof.
  intros [Q W S C I J] Hf X. destruct T as [H n]. cbn [hd ct] in *. destruct (emplace_multi_ok lt H s t v fuel n Q W Hf) as (s1 & E & _ & M & _). congruence.
Qed.
Lemma unique_made T s t v fuel x b T' s' : inv T s t -> length (elems t) < fuel -> emplace_unique lt fuel T v s = Ok (x, b, T', s') -> made s' = S (made s).
Proof.
  intros [Q W S C I J] Hf X. destruct T as [H n]. cbn [hd ct] in *. pose proof (emplace_unique_ok lt H s t v fuel n Q W Hf) as Y.
  destruct (absent lt v _).
  - destruct Y as (s1 & E & _ & M & _). congruence.
  - rewrite Y in X. injection X as _ _ _ <-. done.
Qed.

(** * searches and erase(key), by node *)
Lemma find_scan T s t fuel k : inv T s t -> length (elems t) < fuel -> find lt fuel (hd T) k s = Ok (scan (same k) (hd T) (elems t)).
Proof.
  intros I Hf. pose proof (i_hold _ _ _ _ I) as Q. pose proof (i_srt _ _ _ _ I) as S.
  rewrite (find_ok lt LT (hd T) fuel s t k Q S Hf). f_equal.
  destruct (split3 lt LT k (elems t) S) as (L & M & R & E1 & E2 & E3 & F1 & F2 & F3). rewrite E2, E1.
  rewrite scan_app by (apply (Forall_impl _ _ _ F1); intros p; apply not_same_lt).
  destruct M as [|[x a] M]; cbn [app].
  - destruct R as [|[y b] R]; [done|]. pose proof (Forall_inv F3) as F4. cbn in F4. rewrite F4.
    rewrite <- (app_nil_r ((y, b) :: R)), scan_app; [done|]. apply (Forall_impl _ _ _ F3). intros p. apply not_same_gt.
  - apply Forall_cons in F2 as [F2 _]. rewrite scan_hit by done. unfold RbSpec.same in F2. cbn in F2. by destruct (lt k a).
Qed.
Lemma lower_scan T s t fuel k : inv T s t -> length (elems t) < fuel ->
  lower_bound lt fuel (hd T) k s = Ok (scan (fun a => negb (lt a k)) (hd T) (elems t)).
Proof.
  intros I Hf. rewrite (lower_ok lt LT (hd T) fuel s t k (i_hold _ _ _ _ I) (i_srt _ _ _ _ I) Hf). f_equal. rewrite scan_dropw. f_equal.
  clear. induction (elems t) as [|p l IH]; cbn; [done|]. rewrite negb_involutive, IH. done.
Qed.
Lemma upper_scan T s t fuel k : inv T s t -> length (elems t) < fuel ->
  upper_bound lt fuel (hd T) k s = Ok (scan (lt k) (hd T) (elems t)).
Proof.
  intros I Hf. rewrite (upper_ok lt LT (hd T) fuel s t k (i_hold _ _ _ _ I) (i_srt _ _ _ _ I) Hf). f_equal. by rewrite scan_dropw.
Qed.
Lemma del_key2 T s t fuel (u : bool) k : inv T s t -> (u = true -> strict lt (elems t).*2) -> length (elems t) < fuel ->
  (exists T' s' t', step lt fuel u (DelKey k) T s = Ok (T', s') /\ hd T' = hd T /\ made s' = made s /\ inv T' s' t' /\
     elems t' = List.filter (fun p => negb (same k (snd p))) (elems t) /\ (good t -> good t')) \/
  (step lt fuel u (DelKey k) T s = Fuel /\ ~ good t).
Proof.
  intros I U Hf. pose proof (i_hold _ _ _ _ I) as Q. pose proof (i_srt _ _ _ _ I) as S.
  destruct (split3 lt LT k (elems t) S) as (L & M & R & E1 & E2 & E3 & F1 & F2 & F3).
  assert (List.filter (fun p => negb (same k (snd p))) (elems t) = L ++ R) as EF.
  { rewrite E1, !List.filter_app. rewrite (filter_all _ L), (filter_none _ M), (filter_all _ R); [done| | |].
    - apply (Forall_impl _ _ _ F3). intros p Hp. by rewrite not_same_gt.
    - apply (Forall_impl _ _ _ F2). intros p Hp. by rewrite Hp.
    - apply (Forall_impl _ _ _ F1). intros p Hp. by rewrite not_same_lt. }
  rewrite EF. cbn [step]. destruct u.
  - unfold erase_unique. rewrite (find_ok lt LT (hd T) fuel s t k Q S Hf). cbn [obind]. rewrite E2.
    destruct M as [|[x a] M].
    + cbn [app] in *. destruct R as [|[y b] R].
      * rewrite bool_decide_eq_true_2 by done. left. exists T, s, t. cbn [obind]. by rewrite E1.
      * apply Forall_cons in F3 as [F3 _]. cbn in F3. rewrite F3. rewrite bool_decide_eq_true_2 by done. left. exists T, s, t. cbn [obind]. by rewrite E1.
    + pose proof (Forall_inv F2) as Fa. unfold RbSpec.same in Fa. cbn in Fa. apply andb_true_iff in Fa as [Fa _]. apply negb_true_iff in Fa.
      cbn [app]. rewrite Fa. rewrite bool_decide_eq_false_2 by (apply (first_not_head (hd T) s t L x a (M ++ R) Q E1)).
      assert (M = []) as ->.
      { specialize (U eq_refl). rewrite E1, !fmap_app in U. apply (strict_mid lt LT _ _ _ k) in U; [|by apply Forall_fmap]. cbn in U. destruct M; [done|cbn in U; lia]. }
      cbn [app] in *. destruct (erase_inv lt T s t fuel L x a R I E1 Hf) as [(T' & s' & t' & E4 & H4 & I4 & F4 & _ & G4)|[E4 G4]]; rewrite E4; cbn [obind]; [|by right].
      left. exists T', s', t'. rewrite F4. pose proof (erase_made T s t fuel L x a R _ _ _ I E1 Hf E4). done.
  - unfold erase_multi, equal_range_multi. rewrite (lower_ok lt LT (hd T) fuel s t k Q S Hf). cbn [obind].
    rewrite (upper_ok lt LT (hd T) fuel s t k Q S Hf). cbn [obind]. rewrite E2, E3. unfold distance.
    rewrite (dist_ok (hd T) fuel s t Q Hf M fuel L R E1); cycle 1. { rewrite E1, !app_length in Hf. lia. } cbn [obind].
    destruct (range_inv lt T s t fuel L M R I E1 Hf) as [(T' & s' & t' & E4 & H4 & I4 & F4 & G4)|[E4 G4]]; rewrite E4; cbn [obind]; [|by right].
    left. exists T', s', t'. rewrite F4. pose proof (range_made T s t fuel L M R _ _ I E1 Hf E4). done.
Qed.

(** * refinement *)
Notation env := (gmap nat loc).
Record agree (u : bool) (w : world A) (e : env) T s t : Prop := {
  a_inv : inv T s t;
  a_elts : elems t = elts w;
  a_born : made s = born w;
  a_top : hd T = 0;
  a_strict : u = true -> strict lt (elems t).*2;
  a_marks : forall i m, marks w !! i = Some m -> e !! i = Some (default (hd T) m)
}.
Lemma a_point u w e T s t j m : agree u w e T s t -> agree u (point j m w) (<[j := default (hd T) m]> e) T s t.
Proof.
  intros [I E B O U M]. split; try done. intros i n. cbn. destruct (decide (j = i)) as [->|N].
  - rewrite !lookup_insert. by intros [= ->].
  - rewrite !lookup_insert_ne by done. apply M.
Qed.
Lemma a_keep u w e T s t T' s' t' l' : agree u w e T s t -> hd T' = hd T -> made s' = made s -> inv T' s' t' -> elems t' = l' ->
  (u = true -> strict lt l'.*2) -> agree u (keep l' w) e T' s' t'.
Proof.
  intros [I E B O U M] HT HM I' E' U'. split; try done.
  - cbn. congruence.
  - congruence.
  - by rewrite E'.
  - cbn. rewrite HT. exact M.
Qed.
Lemma first_0 (d : loc) l : first d l = default d (mark_of l 0).
Proof. by rewrite <- (first_drop d l 0), drop_0. Qed.

Definition ifits (c : icmd A) w : Prop := match c with IAdd v _ => forall p, In p (elts w) -> lt v (snd p) = false | _ => True end.
Lemma istep_ok fuel (u : bool) c w w' e T s t : agree u w e T s t -> sstep lt u c w = Some w' -> length (elts w) < fuel ->
  (exists e' T' s' t', istep lt fuel u c (e, T, s) = Ok (e', T', s') /\ agree u w' e' T' s' t' /\ (good t -> ifits c w -> good t')) \/
  (istep lt fuel u c (e, T, s) = Fuel /\ is_iadd c = false /\ ~ good t).
Proof.
  intros AG X Hf. pose proof AG as [I E B O U M]. pose proof (i_hold _ _ _ _ I) as Q. pose proof (i_srt _ _ _ _ I) as S. rewrite <- E in Hf.
  assert (forall j m, sstep lt u c w = Some (point j m w) -> istep lt fuel u c (e, T, s) = Ok (<[j := default (hd T) m]> e, T, s) ->
    exists e' T' s' t', istep lt fuel u c (e, T, s) = Ok (e', T', s') /\ agree u w' e' T' s' t' /\ (good t -> ifits c w -> good t')) as PT.
  { intros j m Y Z. rewrite X in Y. injection Y as ->. eexists _, _, _, t. split; [exact Z|]. split; [by apply a_point|auto]. }
  assert (forall m p, posn (elts w) m = Some p -> default (hd T) m = first (hd T) (drop p (elems t)) /\ p <= length (elems t)) as PF.
  { rewrite E. intros m p. apply posn_first. }
  destruct c as [v j|i j|i k|k| |j|j|k j|k j|k j|i|i].
  - (* insert *) left.
    assert (forall x, good t -> (forall p, In p (elts w) -> lt v (snd p) = false) -> good (insert lt x v t)) as G.
    { intros x G F. apply insert_good; [done|apply Q|]. apply Forall_forall. intros p Hp. rewrite E in Hp. by apply F, elem_of_list_In. }
    assert (forall T' s' , inv T' s' (insert lt (made s) v t) -> hd T' = hd T -> made s' = Datatypes.S (made s) -> (u = true -> existsb (same v) (elems t).*2 = false) ->
      agree u {| elts := splace lt (born w) v (elts w); marks := <[j:=Some (born w)]> (marks w); born := Datatypes.S (born w) |} (<[j := made s]> e) T' s' (insert lt (made s) v t)) as AGI.
    { intros T' s' I' HT HM HU. assert (elems (insert lt (made s) v t) = splace lt (born w) v (elts w)) as EE
        by (rewrite (elems_insert_sorted lt LT _ _ _ S), splace_split, <- B, <- E; done).
      split; cbn [elts marks born]; [done|done|lia|congruence| |].
      - intros Hu. rewrite EE, splace_vals, <- E. apply (strict_place lt LT); auto.
      - intros i m. destruct (decide (j = i)) as [->|N].
        + rewrite !lookup_insert. intros [= <-]. cbn. by rewrite B.
        + rewrite !lookup_insert_ne by done. rewrite HT. apply M. }
    cbn [sstep istep] in *. rewrite <- E in X. destruct u; cbn [andb] in X.
    + pose proof (add_unique lt LT T s t v fuel I Hf) as Y. destruct (existsb (same v) (elems t).*2) eqn:Ex.
      * destruct Y as [E1 I1]. rewrite E1. cbn [obind]. injection X as <-. eexists _, _, _, t. split; [done|]. split; [|auto].
        split; cbn [elts marks born made]; try done; [lia|].
        intros i m. destruct (decide (j = i)) as [->|N]; [by rewrite lookup_delete|]. rewrite lookup_delete_ne, lookup_insert_ne by done. apply M.
      * destruct Y as (T' & s' & t' & E1 & H1 & -> & I1). rewrite E1. cbn [obind]. injection X as <-. eexists _, _, _, _. split; [done|].
        rewrite E. split; [|apply G]. apply AGI; try done. exact (unique_made T s t v fuel _ _ _ _ I Hf E1).
    + destruct (add_multi lt LT T s t v fuel I Hf) as (T' & s' & t' & E1 & H1 & -> & I1). rewrite E1. cbn [obind]. injection X as <-. eexists _, _, _, _. split; [done|].
      rewrite E. split; [|apply G]. apply AGI; try done. exact (multi_made T s t v fuel _ _ _ I Hf E1).
  - (* erase(i) *) cbn [sstep istep] in *. destruct (marks w !! i) as [m|] eqn:Ei; cbn [mbind option_bind] in X; [|done].
    destruct (posn (elts w) m) as [p|] eqn:Ep; cbn [mbind option_bind] in X; [|done]. destruct (elts w !! p) as [[x a]|] eqn:El; cbn [mbind option_bind] in X; [|done].
    injection X as <-. unfold iter. rewrite (M i m Ei). cbn [of_option obind]. destruct (PF m p Ep) as [-> _].
    rewrite <- E in El. rewrite (drop_S _ _ _ El). cbn [first].
    pose proof (eq_sym (take_drop_middle _ _ _ El)) as ES.
    destruct (erase_inv lt T s t fuel _ x a _ I ES Hf) as [(T' & s' & t' & E1 & H1 & I1 & F1 & _ & G1)|[E1 G1]]; rewrite E1; cbn [obind]; [left|by right].
    eexists _, T', s', t'. split; [done|]. split; [|auto]. rewrite first_drop, <- H1, E. apply a_point.
    apply (a_keep u w e T s t); try done.
    + exact (erase_made T s t fuel _ x a _ _ _ _ I ES Hf E1).
    + by rewrite F1, E.
    + intros Hu. rewrite fmap_take_drop. apply strict_sub; [lia|]. rewrite <- E. auto.
  - (* erase(i, k) *) cbn [sstep istep] in *. destruct (marks w !! i) as [m|] eqn:Ei; cbn [mbind option_bind] in X; [|done].
    destruct (marks w !! k) as [n|] eqn:Ek; cbn [mbind option_bind] in X; [|done].
    destruct (posn (elts w) m) as [p|] eqn:Ep; cbn [mbind option_bind] in X; [|done]. destruct (posn (elts w) n) as [q|] eqn:Eq; cbn [mbind option_bind] in X; [|done].
    destruct (Nat.leb_spec p q) as [Hpq|]; [|done]. injection X as <-. unfold iter. rewrite (M i m Ei), (M k n Ek). cbn [of_option obind].
    destruct (PF m p Ep) as [-> _]. destruct (PF n q Eq) as [-> Hq].
    assert (drop p (elems t) = take (q - p) (drop p (elems t)) ++ drop q (elems t)) as E0'.
    { replace q with (p + (q - p)) at 2 by lia. rewrite <- drop_drop. by rewrite take_drop. }
    assert (elems t = take p (elems t) ++ take (q - p) (drop p (elems t)) ++ drop q (elems t)) as E0 by (by rewrite <- E0', take_drop).
    rewrite E0'.
    destruct (range_inv lt T s t fuel _ _ _ I E0 Hf) as [(T' & s' & t' & E4 & H4 & I4 & F4 & G4)|[E4 G4]]; rewrite E4; cbn [obind]; [left|by right].
    eexists _, T', s', t'. split; [done|]. split; [|auto]. apply (a_keep u w e T s t); try done.
    + exact (range_made T s t fuel _ _ _ _ _ I E0 Hf E4).
    + by rewrite F4, E.
    + intros Hu. rewrite fmap_take_drop. apply strict_sub; [lia|]. rewrite <- E. auto.
  - (* erase(key) *) cbn [sstep] in X. injection X as <-. unfold istep.
    destruct (del_key2 T s t fuel u k I U Hf) as [(T' & s' & t' & E1 & H1 & M1 & I1 & F1 & G1)|[E1 G1]]; rewrite E1; cbn [obind]; [left|by right].
    eexists _, T', s', t'. split; [done|]. split; [|auto]. rewrite <- E. apply (a_keep u w e T s t); try done.
    intros Hu. rewrite (filter_vals (fun a => negb (same k a))). apply (strict_effect lt LT (DelKey k)). auto.
  - (* clear *) cbn [sstep istep] in *. injection X as <-. left. destruct (clear_inv lt T s t fuel I Hf) as (T' & s' & E1 & H1 & I1). rewrite E1. cbn [obind].
    eexists _, T', s', RbPure.E. split; [done|]. split; [|intros _ _; exists 0; constructor]. apply (a_keep u w e T s t); try done.
    + exact (clear_made T s t fuel _ _ I Hf E1).
    + intros _. constructor.
  - left. apply (PT j (mark_of (elts w) 0)); [done|]. cbn [istep]. rewrite (tbegin_ok (hd T) s t Q). cbn [obind]. by rewrite first_0, E.
  - left. apply (PT j None); [done|]. done.
  - left. apply (PT j (seek (same k) (elts w))); [done|]. cbn [istep]. rewrite (find_scan T s t fuel k I Hf). cbn [obind]. by rewrite seek_scan, E.
  - left. apply (PT j (seek (fun a => negb (lt a k)) (elts w))); [done|]. cbn [istep]. rewrite (lower_scan T s t fuel k I Hf). cbn [obind]. by rewrite seek_scan, E.
  - left. apply (PT j (seek (lt k) (elts w))); [done|]. cbn [istep]. rewrite (upper_scan T s t fuel k I Hf). cbn [obind]. by rewrite seek_scan, E.
  - (* ++ *) left. pose proof X as X0. cbn [sstep] in X. destruct (marks w !! i) as [m|] eqn:Ei; cbn [mbind option_bind] in X; [|done].
    destruct (posn (elts w) m) as [p|] eqn:Ep; cbn [mbind option_bind] in X; [|done]. destruct (elts w !! p) as [[x a]|] eqn:El; cbn [mbind option_bind] in X; [|done].
    injection X as X. apply (PT i (mark_of (elts w) (Datatypes.S p))); [by rewrite X0, X|]. cbn [istep]. unfold iter. rewrite (M i m Ei). cbn [of_option obind].
    destruct (PF m p Ep) as [-> _]. rewrite <- E in El. rewrite (drop_S _ _ _ El). cbn [first].
    rewrite (inc_ok (hd T) fuel s t _ x a _ Q (eq_sym (take_drop_middle _ _ _ El)) Hf). cbn [obind]. by rewrite first_drop, E.
  - (* -- *) left. pose proof X as X0. cbn [sstep] in X. destruct (marks w !! i) as [m|] eqn:Ei; cbn [mbind option_bind] in X; [|done].
    destruct (posn (elts w) m) as [[|p]|] eqn:Ep; cbn [mbind option_bind] in X; [done| |done].
    injection X as X. apply (PT i (mark_of (elts w) p)); [by rewrite X0, X|]. cbn [istep]. unfold iter. rewrite (M i m Ei). cbn [of_option obind].
    destruct (PF m _ Ep) as [-> Hp].
    destruct (elems t !! p) as [[x a]|] eqn:El; [|apply lookup_ge_None in El; lia].
    assert (take (Datatypes.S p) (elems t) = take p (elems t) ++ [(x, a)]) as Et by (by apply take_S_r).
    assert (mark_of (elts w) p = Some x) as -> by (unfold mark_of; by rewrite <- E, El). cbn [default].
    destruct (elems t !! Datatypes.S p) as [[y b]|] eqn:En.
    + rewrite (drop_S _ _ _ En). cbn [first].
      rewrite (dec_ok (hd T) fuel s t (take (Datatypes.S p) (elems t)) y b (drop (Datatypes.S (Datatypes.S p)) (elems t)) Q (eq_sym (take_drop_middle _ _ _ En)) Hf).
      { cbn [obind]. by rewrite Et, final_snoc. } { rewrite Et. by destruct (take p (elems t)). }
    + apply lookup_ge_None in En. rewrite drop_ge by lia. cbn [first]. rewrite (decrement_end (hd T) fuel s t Q) by (intros ->; cbn in Hp; lia). cbn [obind].
      rewrite <- (take_ge (elems t) (Datatypes.S p)) by lia. by rewrite Et, final_snoc.
Qed.

Lemma sstep_len u c w w' : sstep lt u c w = Some w' -> length (elts w') <= length (elts w) + (if is_iadd c then 1 else 0).
Proof.
  destruct c as [v j|i j|i k|k| |j|j|k j|k j|k j|i|i]; cbn [sstep is_iadd]; intros X.
  - destruct (u && _); injection X as <-; cbn [elts]; [lia|]. rewrite <- (fmap_length snd), splace_vals, place_len, fmap_length. lia.
  - destruct (marks w !! i); cbn [mbind option_bind] in X; [|done]. destruct (posn _ _); cbn [mbind option_bind] in X; [|done].
    destruct (elts w !! _); cbn [mbind option_bind] in X; [|done]. injection X as <-. cbn. rewrite app_length, take_length, drop_length. lia.
  - destruct (marks w !! i) as [m|]; cbn [mbind option_bind] in X; [|done]. destruct (marks w !! k) as [n|]; cbn [mbind option_bind] in X; [|done].
    destruct (posn (elts w) m) as [p|]; cbn [mbind option_bind] in X; [|done]. destruct (posn (elts w) n) as [q|]; cbn [mbind option_bind] in X; [|done].
    destruct (Nat.leb_spec p q); [|done]. injection X as <-. cbn. rewrite app_length, take_length, drop_length. lia.
  - injection X as <-. cbn. pose proof (filter_len (fun p => negb (same k (snd p))) (elts w)). lia.
  - injection X as <-. cbn. lia.
  - injection X as <-. cbn. lia.
  - injection X as <-. cbn. lia.
  - injection X as <-. cbn. lia.
  - injection X as <-. cbn. lia.
  - injection X as <-. cbn. lia.
  - destruct (marks w !! i); cbn [mbind option_bind] in X; [|done]. destruct (posn _ _); cbn [mbind option_bind] in X; [|done].
    destruct (elts w !! _); cbn [mbind option_bind] in X; [|done]. injection X as <-. cbn. lia.
  - destruct (marks w !! i); cbn [mbind option_bind] in X; [|done]. destruct (posn _ _) as [[|p]|]; cbn [mbind option_bind] in X; [done| |done].
    injection X as <-. cbn. lia.
Qed.
Lemma iadds_cons c (cs : list (icmd A)) : iadds (c :: cs) = (if is_iadd c then 1 else 0) + iadds cs.
Proof. unfold iadds. cbn. by destruct (is_iadd c). Qed.
Lemma srun_len u cs : forall w w', srun lt u cs w = Some w' -> length (elts w') <= length (elts w) + iadds cs.
Proof.
  induction cs as [|c cs IH]; cbn [srun]; intros w w' X; [injection X as ->; lia|].
  destruct (sstep lt u c w) as [w1|] eqn:E1; cbn [mbind option_bind] in X; [|done]. pose proof (sstep_len u c w w1 E1).
  pose proof (IH w1 w' X). rewrite iadds_cons. lia.
Qed.
Lemma isteps_ok fuel (u : bool) cs : forall w w' e T s t, agree u w e T s t -> srun lt u cs w = Some w' -> length (elts w) + iadds cs < fuel ->
  (exists e' T' s' t', isteps lt fuel u cs (e, T, s) = Ok (e', T', s') /\ agree u w' e' T' s' t' /\ (good t -> iappending lt u cs w -> good t')) \/
  (isteps lt fuel u cs (e, T, s) = Fuel /\ forallb is_iadd cs = false /\ ~ (good t /\ iappending lt u cs w)).
Proof.
  induction cs as [|c cs IH]; cbn [srun isteps iappending forallb]; intros w w' e T s t AG X Hf.
  - injection X as <-. left. exists e, T, s, t. auto.
  - destruct (sstep lt u c w) as [w1|] eqn:E1; cbn [mbind option_bind] in X; [|done].
    pose proof (sstep_len u c w w1 E1) as HL. rewrite iadds_cons in Hf.
    assert (forall P : Prop, (match c with IAdd v _ => forall p, In p (elts w) -> lt v (snd p) = false | _ => True end) -> (ifits c w -> P) -> P) as FT.
    { intros P Y Z. apply Z. by destruct c. }
    destruct (istep_ok fuel u c w w1 e T s t AG E1 ltac:(lia)) as [(e1 & T1 & s1 & t1 & E2 & A1 & G1)|(E2 & Z & G1)]; rewrite E2; cbn [obind].
    + destruct (IH w1 w' e1 T1 s1 t1 A1 X ltac:(lia)) as [(e2 & T2 & s2 & t2 & E3 & A2 & G2)|(E3 & Z & G2)]; rewrite E3.
      * left. exists e2, T2, s2, t2. split; [done|]. split; [done|]. intros G [P1 P2]. apply G2; [|done]. apply (FT _ P1). auto.
      * right. split; [done|]. split; [rewrite Z; apply andb_false_r|]. intros (G & P1 & P2). apply G2. split; [|done]. apply (FT _ P1). auto.
    + right. split; [done|]. rewrite Z. split; [done|]. tauto.
Qed.
Lemma isteps_app fuel u cs1 cs2 st : isteps lt fuel u (cs1 ++ cs2) st = (st <~ isteps lt fuel u cs1 st ; isteps lt fuel u cs2 st).
Proof. revert st. induction cs1 as [|c cs1 IH]; intros st; cbn; [done|]. destruct (istep lt fuel u c st); cbn; auto. Qed.
Lemma srun_app u cs1 cs2 w : srun lt u (cs1 ++ cs2) w = (srun lt u cs1 w ≫= srun lt u cs2).
Proof. revert w. induction cs1 as [|c cs1 IH]; intros w; cbn; [done|]. destruct (sstep lt u c w); cbn; auto. Qed.
Lemma iadds_app (cs1 cs2 : list (icmd A)) : iadds (cs1 ++ cs2) = iadds cs1 + iadds cs2.
Proof. unfold iadds. by rewrite List.filter_app, app_length. Qed.

(** a new set *)
Lemma irun_new : exists T s, tree_new (no_heap (A := A)) = Ok (T, s) /\ forall u, agree u (world0 (A := A)) ∅ T s RbPure.E.
Proof.
  destruct (inv_new lt (Fr := ∅) (no_heap (A := A))) as (T0 & s0 & E0 & H0 & M0 & I0); [done|done|]. exists T0, s0. split; [done|].
  intros u. split; try done. intros _. constructor.
Qed.
Lemma good_E : good (RbPure.E : tr).
Proof. exists 0. constructor. Qed.
Lemma irun_ok fuel (u : bool) cs w : srun lt u cs world0 = Some w -> iadds cs < fuel ->
  (exists e T s t, irun lt fuel u cs = Ok (e, T, s) /\ agree u w e T s t /\ length (elts w) < fuel) \/
  (irun lt fuel u cs = Fuel /\ forallb is_iadd cs = false /\ ~ iappending lt u cs world0).
Proof.
  intros X Hf. destruct irun_new as (T0 & s0 & E0 & A0). unfold irun. rewrite E0. cbn [obind].
  pose proof (srun_len u cs _ _ X) as HL. cbn in HL.
  destruct (isteps_ok fuel u cs _ _ _ _ _ _ (A0 u) X ltac:(cbn; lia)) as [(e & T & s & t & E1 & A1 & _)|(E1 & Z & G)]; rewrite E1.
  - left. exists e, T, s, t. split; [done|]. split; [done|lia].
  - right. split; [done|]. split; [done|]. intros P. apply G. split; [apply good_E|done].
Qed.

(** * the statements *)
Theorem iter_exact fuel (u : bool) cs w : srun lt u cs world0 = Some w -> iadds cs < fuel ->
  (exists e T s, irun lt fuel u cs = Ok (e, T, s) /\
     forward fuel (hd T) s = Ok (elts w) /\ backward fuel (hd T) s = Ok (rev (elts w)) /\ ct T = Z.of_nat (length (elts w)) /\
     (forall i, marks w !! i = Some None -> e !! i = Some (hd T)) /\
     (forall i k v, marks w !! i = Some (Some k) -> In (k, v) (elts w) -> e !! i = Some k /\ k <> hd T /\ key k s = Ok v)) \/
  (irun lt fuel u cs = Fuel /\ forallb is_iadd cs = false /\ ~ iappending lt u cs world0).
Proof.
  intros X Hf. destruct (irun_ok fuel u cs w X Hf) as [(e & T & s & t & E1 & AG & HL)|Y]; [left|by right].
  destruct AG as [I E B O U M]. pose proof (i_hold _ _ _ _ I) as Q. rewrite <- E in HL. exists e, T, s. split; [done|].
  rewrite (forward_ok (hd T) fuel s t Q HL), (backward_ok (hd T) fuel s t Q HL), <- E. split; [done|]. split; [done|]. split; [apply (i_ct _ _ _ _ I)|].
  split; [intros i Hi; by rewrite (M i _ Hi)|].
  intros i k v Hi Hk. apply elem_of_list_In in Hk. split; [by rewrite (M i _ Hi)|]. split; [|by apply (hold_key (hd T) s t)].
  intros ->. apply hold_nodup, NoDup_cons in Q as [Q _]. apply Q. apply elem_of_list_fmap. by exists (hd T, v).
Qed.

(** identities *)
Definition sane w : Prop :=
  0 < born w /\ (forall k v, (k, v) ∈ elts w -> 0 < k < born w) /\ (forall i k, marks w !! i = Some (Some k) -> 0 < k < born w).
Lemma mark_in l p k : mark_of l p = Some k -> exists v, (k, v) ∈ l.
Proof. unfold mark_of. destruct (l !! p) as [[x a]|] eqn:E; cbn; [|done]. intros [= ->]. exists a. by apply elem_of_list_lookup_2 in E. Qed.
Lemma seek_in (g : A -> bool) l k : seek g l = Some k -> exists v, (k, v) ∈ l.
Proof.
  unfold seek. destruct (List.find _ l) as [[x a]|] eqn:E; cbn; [|done]. intros [= ->]. exists a. apply find_some in E as [E _]. by apply elem_of_list_In.
Qed.
Lemma sane_point w j m : sane w -> (forall k, m = Some k -> exists v, (k, v) ∈ elts w) -> sane (point j m w).
Proof.
  intros (S0 & S1 & S2) Hm. split; [done|]. split; [done|]. intros i k. cbn. destruct (decide (j = i)) as [->|N].
  - rewrite lookup_insert. intros [= ->]. destruct (Hm k eq_refl) as [v Hv]. exact (S1 k v Hv).
  - rewrite lookup_insert_ne by done. apply S2.
Qed.
Lemma sane_keep w l : sane w -> (forall p, p ∈ l -> p ∈ elts w) -> sane (keep l w).
Proof. intros (S0 & S1 & S2) Hl. split; [done|]. split; [|done]. intros k v X. cbn in *. apply (S1 k v). auto. Qed.
Lemma in_cut (p : nat * A) n m l : p ∈ take n l ++ drop m l -> p ∈ l.
Proof. rewrite elem_of_app. intros [X|X]; [by apply elem_of_take in X as (? & X & _); apply elem_of_list_lookup_2 in X|]. apply elem_of_list_lookup in X as [i X]. rewrite lookup_drop in X. by apply elem_of_list_lookup_2 in X. Qed.

(** what a step leaves: the elements it keeps are old ones or have the new identity; iterators it does not set stay *)
Lemma sstep_keep u c w w' : sstep lt u c w = Some w' -> sane w ->
  sane w' /\ born w <= born w' /\ (forall p, p ∈ elts w' -> p ∈ elts w \/ fst p = born w /\ born w < born w') /\
  (forall i k, ~ sets c i -> marks w' !! i = Some k <-> marks w !! i = Some k).
Proof.
  intros X SA. pose proof SA as (S0 & S1 & S2). assert (forall j m, w' = point j m w -> sets c j -> (forall k, m = Some k -> exists v, (k, v) ∈ elts w) ->
    sane w' /\ born w <= born w' /\ (forall p, p ∈ elts w' -> p ∈ elts w \/ fst p = born w /\ born w < born w') /\
    (forall i k, ~ sets c i -> marks w' !! i = Some k <-> marks w !! i = Some k)) as PT.
  { intros j m -> Hs Hm. split; [by apply sane_point|]. split; [done|]. split; [auto|]. intros i k Hi. cbn. rewrite lookup_insert_ne; [done|]. by intros ->. }
  assert (forall l, w' = keep l w -> (forall p, p ∈ l -> p ∈ elts w) ->
    sane w' /\ born w <= born w' /\ (forall p, p ∈ elts w' -> p ∈ elts w \/ fst p = born w /\ born w < born w') /\
    (forall i k, ~ sets c i -> marks w' !! i = Some k <-> marks w !! i = Some k)) as KP.
  { intros l -> Hl. split; [by apply sane_keep|]. split; [done|]. split; [auto|]. done. }
  destruct c as [v j|i j|i k|k| |j|j|k j|k j|k j|i|i]; cbn [sstep sets] in *.
  - destruct (u && _); injection X as <-; cbn [elts marks born]; (split; [|split; [lia|split]]).
    + split; [cbn; lia|]. split; cbn; [intros k a Ha; specialize (S1 k a Ha); lia|]. intros i k. destruct (decide (j = i)) as [->|N].
      * by rewrite lookup_delete.
      * rewrite lookup_delete_ne by done. intros Hi. specialize (S2 i k Hi). lia.
    + auto.
    + intros i k N. rewrite lookup_delete_ne; [done|]. by intros ->.
    + split; [cbn; lia|]. split; cbn.
      * intros k a Ha. apply splace_in in Ha as [[= -> ->]|Ha]; [|specialize (S1 k a Ha); lia]. lia.
      * intros i k. destruct (decide (j = i)) as [->|N].
        { rewrite lookup_insert. intros [= <-]. lia. }
        rewrite lookup_insert_ne by done. intros Hi. specialize (S2 i k Hi). lia.
    + intros p Hp. apply splace_in in Hp as [->|Hp]; [right|by left]. cbn. lia.
    + intros i k N. rewrite lookup_insert_ne; [done|]. by intros ->.
  - destruct (marks w !! i); cbn [mbind option_bind] in X; [|done]. destruct (posn _ _) as [p|]; cbn [mbind option_bind] in X; [|done].
    destruct (elts w !! _); cbn [mbind option_bind] in X; [|done]. injection X as <-. clear PT KP. split; [|split; [done|split]].
    + apply sane_point; [apply sane_keep; [done|intros x; apply in_cut]|]. intros k Hk. cbn [keep elts]. unfold mark_of in Hk.
      destruct (elts w !! S p) as [[x a]|] eqn:E; cbn in Hk; [|done]. injection Hk as ->. exists a. apply elem_of_app. right.
      apply elem_of_list_lookup. exists 0. rewrite lookup_drop. by rewrite Nat.add_0_r.
    + intros x Hx. left. cbn in Hx. by apply in_cut in Hx.
    + intros i' k N. cbn. rewrite lookup_insert_ne; [done|]. by intros ->.
  - destruct (marks w !! i) as [m|]; cbn [mbind option_bind] in X; [|done]. destruct (marks w !! k) as [n|]; cbn [mbind option_bind] in X; [|done].
    destruct (posn (elts w) m) as [p|]; cbn [mbind option_bind] in X; [|done]. destruct (posn (elts w) n) as [q|]; cbn [mbind option_bind] in X; [|done].
    destruct (Nat.leb_spec p q); [|done]. injection X as <-. eapply KP; [done|]. intros x. apply in_cut.
  - injection X as <-. eapply KP; [done|]. intros p Hp. apply elem_of_list_In, filter_In in Hp as [Hp _]. by apply elem_of_list_In.
  - injection X as <-. eapply KP; [done|]. intros p Hp. by apply elem_of_nil in Hp.
  - injection X as <-. eapply PT; [done|done|]. intros k. apply mark_in.
  - injection X as <-. eapply PT; [done|done|]. done.
  - injection X as <-. eapply PT; [done|done|]. intros x. apply seek_in.
  - injection X as <-. eapply PT; [done|done|]. intros x. apply seek_in.
  - injection X as <-. eapply PT; [done|done|]. intros x. apply seek_in.
  - destruct (marks w !! i); cbn [mbind option_bind] in X; [|done]. destruct (posn _ _); cbn [mbind option_bind] in X; [|done].
    destruct (elts w !! _); cbn [mbind option_bind] in X; [|done]. injection X as <-. eapply PT; [done|done|]. intros x. apply mark_in.
  - destruct (marks w !! i); cbn [mbind option_bind] in X; [|done]. destruct (posn _ _) as [[|p]|]; cbn [mbind option_bind] in X; [done| |done].
    injection X as <-. eapply PT; [done|done|]. intros x. apply mark_in.
Qed.

Lemma srun_keep u cs : forall w w', srun lt u cs w = Some w' -> sane w ->
  sane w' /\ born w <= born w' /\ (forall p, p ∈ elts w' -> fst p < born w -> p ∈ elts w) /\
  (forall i k, Forall (fun c => ~ sets c i) cs -> marks w !! i = Some k -> marks w' !! i = Some k).
Proof.
  induction cs as [|c cs IH]; cbn [srun]; intros w w' X SA.
  - injection X as <-. auto.
  - destruct (sstep lt u c w) as [w1|] eqn:E1; cbn [mbind option_bind] in X; [|done].
    destruct (sstep_keep u c w w1 E1 SA) as (A1 & B1 & C1 & D1). destruct (IH w1 w' X A1) as (A2 & B2 & C2 & D2).
    split; [done|]. split; [lia|]. split.
    + intros p Hp Hk. destruct (C1 p) as [Y|[Y _]]; [apply C2; [done|lia]|done|lia].
    + intros i k F Hk. apply Forall_cons in F as [F1 F2]. apply D2; [done|]. by apply D1.
Qed.
Lemma sane0 : sane (world0 (A := A)).
Proof. split; [cbn; lia|]. split; cbn; [intros k v Y; by apply elem_of_nil in Y|]. intros i k. by rewrite lookup_empty. Qed.

Lemma sstep_grow u c w w' p : sstep lt u c w = Some w' -> erases c = false -> p ∈ elts w -> p ∈ elts w'.
Proof.
  intros X Hc Hp. destruct c as [v j|i j|i k|k| |j|j|k j|k j|k j|i|i]; try discriminate Hc; cbn [sstep] in X;
    try (injection X as <-; exact Hp).
  - destruct (u && _); injection X as <-; [done|]. cbn. apply splace_in. by right.
  - destruct (marks w !! i); cbn [mbind option_bind] in X; [|done]. destruct (posn _ _); cbn [mbind option_bind] in X; [|done].
    destruct (elts w !! _); cbn [mbind option_bind] in X; [|done]. by injection X as <-.
  - destruct (marks w !! i); cbn [mbind option_bind] in X; [|done]. destruct (posn _ _) as [[|q]|]; cbn [mbind option_bind] in X; [done| |done].
    by injection X as <-.
Qed.
Lemma srun_grow u cs p : forall w w', srun lt u cs w = Some w' -> forallb (fun c => negb (erases c)) cs = true -> p ∈ elts w -> p ∈ elts w'.
Proof.
  induction cs as [|c cs IH]; cbn [srun forallb]; intros w w' X F Hp.
  - by injection X as <-.
  - destruct (sstep lt u c w) as [w1|] eqn:E1; cbn [mbind option_bind] in X; [|done]. apply andb_true_iff in F as [F1 F2]. apply negb_true_iff in F1.
    apply (IH w1 w' X F2). by apply (sstep_grow u c w w1).
Qed.
Lemma gone u w e T s t k : agree u w e T s t -> 0 < k -> k ∉ (elts w).*1 -> cells s !! k = None.
Proof.
  intros [I E B O U M] Hk N. rewrite (i_all _ _ _ _ I); [by rewrite lookup_empty|]. unfold foot. rewrite O. cbn.
  destruct (decide (cnt t k = 0)) as [Z|Z]; [rewrite Z, (bit_ne 0 k) by lia; done|]. exfalso. apply N.
  assert (0 < cnt t k) as Z' by lia. apply cnt_elems in Z' as [a Ha]. rewrite E in Ha. apply elem_of_list_fmap. by exists (k, a).
Qed.

(** an iterator stays with its element while the set changes *)
Theorem iter_stays fuel (u : bool) cs1 cs2 w1 w2 i k v e T s : srun lt u cs1 world0 = Some w1 -> srun lt u cs2 w1 = Some w2 ->
  marks w1 !! i = Some (Some k) -> In (k, v) (elts w1) -> Forall (fun c => ~ sets c i) cs2 -> iadds (cs1 ++ cs2) < fuel ->
  irun lt fuel u (cs1 ++ cs2) = Ok (e, T, s) ->
  e !! i = Some k /\
  (In (k, v) (elts w2) /\ key k s = Ok v \/
   ~ In k (map fst (elts w2)) /\ cells s !! k = None /\ existsb erases cs2 = true).
Proof.
  intros X1 X2 Hi Hk F Hf R. assert (srun lt u (cs1 ++ cs2) world0 = Some w2) as X by (rewrite srun_app, X1; exact X2).
  destruct (irun_ok fuel u _ w2 X Hf) as [(e' & T' & s' & t & E1 & AG & HL)|(E1 & _)]; rewrite R in E1; [|done]. injection E1 as <- <- <-.
  destruct (srun_keep u cs1 _ _ X1 sane0) as (SA1 & _). destruct (srun_keep u cs2 _ _ X2 SA1) as (SA2 & B2 & C2 & D2).
  apply elem_of_list_In in Hk. pose proof SA1 as (_ & S1 & _). pose proof (S1 k v Hk) as Hkb.
  split; [by rewrite (a_marks _ _ _ _ _ _ AG i _ (D2 i _ F Hi))|].
  destruct (decide (k ∈ (elts w2).*1)) as [Y|Y].
  - left. apply elem_of_list_fmap in Y as [[k' v'] [EE Y]]. cbn in EE. subst k'.
    pose proof (C2 (k, v') Y ltac:(cbn; lia)) as Z.
    assert (v' = v) as ->.
    { assert (NoDup (elts w1).*1) as ND.
      { destruct (irun_ok fuel u cs1 w1 X1) as [(e1 & T1 & s1 & t1 & _ & AG1 & _)|(E1 & _)].
        - rewrite iadds_app in Hf. lia.
        - pose proof (i_hold _ _ _ _ (a_inv _ _ _ _ _ _ AG1)) as Q. apply hold_nodup, NoDup_cons in Q as [_ Q].
          by rewrite (a_elts _ _ _ _ _ _ AG1) in Q.
        - exfalso. unfold irun in R, E1. destruct (tree_new no_heap) as [[T0 s0]| |]; cbn [obind] in R, E1; try done.
          rewrite isteps_app, E1 in R. done. }
      clear -ND Z Hk. induction (elts w1) as [|[x a] l IH]; [by apply elem_of_nil in Hk|]. cbn in ND. apply NoDup_cons in ND as [N ND].
      rewrite elem_of_cons in Z, Hk. destruct Z as [Z|Z], Hk as [Hk|Hk]; [congruence| | |auto].
      - injection Z as <- <-. destruct N. apply elem_of_list_fmap. by exists (k, v).
      - injection Hk as <- <-. destruct N. apply elem_of_list_fmap. by exists (k, v'). }
    split; [by apply elem_of_list_In|]. apply (hold_key (hd T) s t); [apply (i_hold _ _ _ _ (a_inv _ _ _ _ _ _ AG))|].
    by rewrite (a_elts _ _ _ _ _ _ AG).
  - right. split; [|split].
    + intros Z. apply Y. by apply elem_of_list_In in Z.
    + apply (gone u w2 e T s t k AG); [lia|done].
    + destruct (existsb erases cs2) eqn:Ee; [done|]. exfalso. apply Y. apply elem_of_list_fmap. exists (k, v). split; [done|].
      apply (srun_grow u cs2 (k, v) w1 w2 X2); [|done]. clear -Ee. induction cs2 as [|c cs IH]; cbn in *; [done|].
      apply orb_false_iff in Ee as [-> Ee]. cbn. auto.
Qed.

(** an iterator whose element is gone *)
Theorem iter_stale fuel (u : bool) cs w i k c e T s : srun lt u cs world0 = Some w -> marks w !! i = Some (Some k) -> ~ In k (map fst (elts w)) ->
  iadds cs < fuel -> irun lt fuel u cs = Ok (e, T, s) ->
  e !! i = Some k /\ key k s = UB /\ (uses c i -> irun lt fuel u (cs ++ [c]) = UB).
Proof.
  intros X Hi N Hf R. destruct (irun_ok fuel u _ w X Hf) as [(e' & T' & s' & t & E1 & AG & HL)|(E1 & _)]; rewrite R in E1; [|done]. injection E1 as <- <- <-.
  destruct (srun_keep u cs _ _ X sane0) as (SA & _). destruct SA as (_ & _ & S2). specialize (S2 i k Hi).
  assert (cells s !! k = None) as D. { apply (gone u w e T s t k AG); [lia|]. intros Y. apply N. by apply elem_of_list_In. }
  assert (e !! i = Some k) as Ei by (by rewrite (a_marks _ _ _ _ _ _ AG i _ Hi)).
  split; [done|]. assert (get k s = UB) as GU by (unfold get; by rewrite D). split; [unfold key; by rewrite GU|].
  intros Hc. unfold irun in *. destruct (tree_new no_heap) as [[T0 s0]| |]; cbn [obind] in *; try done.
  rewrite isteps_app, R. cbn [obind isteps]. destruct c as [| i' j| | | | | | | | |i'|i']; try done; cbn [uses] in Hc; subst i'; cbn [istep]; unfold iter; rewrite Ei; cbn [of_option obind].
  - unfold erase, increment, right. by rewrite GU.
  - unfold increment, right. by rewrite GU.
  - unfold decrement, parent. by rewrite GU.
Qed.
End iter.
