(** Balance, erase and the result of inserting a duplicate. *)
From stdpp Require Import gmap list sorting.
From Coq Require Import ZArith Lia ZifyBool ZifyNat ZifyN.
From Verif Require Import Base RbModel RbPure RbHeap RbInsert RbErase RbUnlink RbOps RbSearch RbAdd RbDel RbBalance RbSpec RbRun RbHist RbThms.
Local Open Scope outcome_scope.

Section t2.
Context {A : Type} (lt : A -> A -> bool) (WO : weak_order lt).
Notation tr := (tr A).
Notation heap := (heap A).
Notation cmd := (cmd (A := A)).
Implicit Types (s : heap) (t : tr) (T : tree).
Notation same := (same lt).

Definition cc t : color := if red t then Red else Black.
Lemma rb_of s t : forall p n, rep s t p -> rbt t n -> red_black s (id t) (cc t) n.
Proof.
  induction t as [|c l IHl x a r IHr]; intros p n R G; cbn [rep id] in *.
  - inversion G; subst. constructor.
  - destruct R as (Hx & Rl & Rr). inversion G as [|l' x' a' r' n' Gl Gr Hl Hr|]; subst; unfold cc; cbn [red].
    + eapply rb_red; [exact Hx|done| |]; cbn [lf rt]; [replace Black with (cc l) by (unfold cc; by rewrite Hl)|replace Black with (cc r) by (unfold cc; by rewrite Hr)]; eauto.
    + eapply rb_black; [exact Hx|done| |]; cbn [lf rt]; eauto.
Qed.
Lemma rb_to s t : forall p n c, rep s t p -> red_black s (id t) c n -> rbt t n /\ c = cc t.
Proof.
  induction t as [|d l IHl x a r IHr]; intros p n c R G; cbn [rep id] in *.
  - inversion G; subst. split; [constructor|done].
  - destruct R as (Hx & Rl & Rr). inversion G as [|x' nd m Hc Hcol Gl Gr|x' nd m cl cr Hc Hcol Gl Gr]; subst; rewrite Hx in Hc; injection Hc as <-; cbn [col lf rt] in *; subst d.
    + destruct (IHl _ _ _ Rl Gl) as [Bl Cl]. destruct (IHr _ _ _ Rr Gr) as [Br Cr]. split; [|done]. unfold cc in *.
      constructor; try done; [by destruct (red l)|by destruct (red r)].
    + destruct (IHl _ _ _ Rl Gl) as [Bl Cl]. destruct (IHr _ _ _ Rr Gr) as [Br Cr]. split; [|done]. by constructor.
Qed.
Lemma tall_of s t : forall p, rep s t p -> tall s (id t) (ht t).
Proof.
  induction t as [|c l IHl x a r IHr]; intros p R; cbn [rep id ht] in *; [constructor|]. destruct R as (Hx & Rl & Rr).
  eapply tall_node; [exact Hx| |]; cbn [lf rt]; eauto.
Qed.
Lemma tall_fun s p h : tall s p h -> forall h', tall s p h' -> h = h'.
Proof.
  induction 1 as [|x n hl hr Hx Hl IHl Hr IHr]; intros h' X; inversion X as [|x' n' hl' hr' Hx' Hl' Hr']; subst; [done|].
  rewrite Hx in Hx'. injection Hx' as <-. by rewrite (IHl _ Hl'), (IHr _ Hr').
Qed.
Lemma inv_top T s t : inv lt (Fr := ∅) T s t -> top_of T s = id t /\ exists p, rep s t p.
Proof.
  intros I. pose proof (hold_at _ _ _ (i_hold _ _ _ _ I)) as P. split.
  - unfold top_of. rewrite (at_head _ _ _ _ _ _ P). done.
  - eexists. exact (at_rep _ _ _ _ _ _ _ _ P).
Qed.
Lemma balanced_good T s t : inv lt (Fr := ∅) T s t -> balanced T s <-> good t.
Proof.
  intros I. destruct (inv_top T s t I) as [Ht [p R]]. unfold balanced. rewrite Ht. split; intros [n G].
  - exists n. by apply (rb_to s t p n Black).
  - exists n. replace Black with (cc t); [by apply (rb_of s t p)|]. unfold cc. by rewrite (proj2 (i_hold _ _ _ _ I)).
Qed.

(** * C24 *)
Theorem balanced_log fuel0 u cs T s : run lt fuel0 u cs = Ok (T, s) -> adds cs < fuel0 -> balanced T s ->
  forall h, tall s (top_of T s) h -> h <= 2 * Nat.log2 (S (length (effects lt u cs []))).
Proof.
  intros E Hf B h Hh. destruct (reach lt WO fuel0 u cs T s E Hf) as (t & I & U & F & _). apply (balanced_good T s t I) in B.
  destruct (inv_top T s t I) as [Ht [p R]]. rewrite Ht in Hh. pose proof (tall_fun _ _ _ (tall_of s t p R) _ Hh) as <-.
  rewrite <- F, fmap_length. apply good_ht; [done|]. apply (i_hold _ _ _ _ I).
Qed.
Theorem append_balanced fuel u cs : adds cs < fuel -> appending lt u cs [] ->
  exists T s h, run lt fuel u cs = Ok (T, s) /\ balanced T s /\ tall s (top_of T s) h /\
    h <= 2 * Nat.log2 (S (length (effects lt u cs []))).
Proof.
  intros Hf Ap. destruct (run_ok lt (swo_of lt WO) fuel u cs Hf) as [(T & s & t & E & I & U & F & G)|(_ & _ & X)]; [|done].
  exists T, s, (ht t). split; [done|]. pose proof (G Ap) as Gt. split; [by apply (balanced_good T s t I)|].
  destruct (inv_top T s t I) as [Ht [p R]]. rewrite Ht. split; [by apply (tall_of s t p)|]. rewrite <- F, fmap_length.
  apply good_ht; [done|]. apply (i_hold _ _ _ _ I).
Qed.

(** * C25 *)
Theorem programs fuel u cs : adds cs < fuel ->
  (exists T s l, run lt fuel u cs = Ok (T, s) /\ forward fuel (hd T) s = Ok l /\ l.*2 = effects lt u cs [] /\ ct T = Z.of_nat (length l)) \/
  run lt fuel u cs = Fuel /\ ~ appending lt u cs [].
Proof.
  intros Hf. destruct (run_ok lt (swo_of lt WO) fuel u cs Hf) as [(T & s & t & E & I & U & F & G)|(E & _ & X)]; [left|by right].
  exists T, s, (elems t). split; [done|]. split; [|split; [done|apply (i_ct _ _ _ _ I)]]. apply forward_ok; [apply (i_hold _ _ _ _ I)|].
  rewrite <- (fmap_length snd), F. pose proof (effects_len lt u cs []). cbn in *. lia.
Qed.
Theorem erase_one fuel0 u cs T s fuel : run lt fuel0 u cs = Ok (T, s) -> adds cs < fuel0 -> adds cs < fuel ->
  exists l, forward fuel (hd T) s = Ok l /\
    forall i x a, l !! i = Some (x, a) ->
      (exists T' s', erase fuel T x s = Ok (match l !! S i with Some (y, _) => y | None => hd T end, T', s') /\
         forward fuel (hd T') s' = Ok (take i l ++ drop (S i) l) /\ ct T' = (ct T - 1)%Z /\ cells s' !! x = None /\
         (balanced T s -> balanced T' s')) \/
      (erase fuel T x s = Fuel /\ ~ balanced T s).
Proof.
  intros E Hf0 Hf. destruct (reach lt WO fuel0 u cs T s E Hf0) as (t & I & U & F & _).
  assert (length (elems t) <= adds cs) as Hl. { rewrite <- (fmap_length snd), F. apply (effects_len lt u cs []). }
  pose proof (i_hold _ _ _ _ I) as Q. assert (length (elems t) < fuel) as Hf' by lia.
  exists (elems t). split; [by apply forward_ok|]. intros i x a Hx.
  pose proof (eq_sym (take_drop_middle _ _ _ Hx)) as Ed.
  destruct (erase_inv lt (Fr := ∅) T s t fuel _ x a _ I Ed Hf') as [(T' & s' & t' & E1 & H1 & I1 & F1 & D1 & G1)|[E1 G1]]; [left|right].
  - exists T', s'. rewrite E1, <- F1. split.
    { do 3 f_equal. destruct (elems t !! S i) as [[y b]|] eqn:Ey; [by rewrite (drop_S _ _ _ Ey)|]. apply lookup_ge_None in Ey. by rewrite drop_ge. }
    assert (length (elems t) = S (length (elems t'))) as Hlen.
    { rewrite Ed, F1, !app_length. cbn [length]. lia. }
    split; [apply forward_ok; [apply (i_hold _ _ _ _ I1)|lia]|].
    split; [rewrite (i_ct _ _ _ _ I1), (i_ct _ _ _ _ I); lia|]. split; [done|].
    intros B. apply (balanced_good T' s' t' I1), G1. by apply (balanced_good T s t I).
  - split; [done|]. intros B. apply G1. by apply (balanced_good T s t I).
Qed.

(** no node is lost *)
Theorem no_leak fuel0 u cs T s fuel : run lt fuel0 u cs = Ok (T, s) -> adds cs < fuel0 -> adds cs < fuel ->
  size (cells s) = S (length (effects lt u cs [])) /\
  exists s', tree_destroy fuel T s = Ok s' /\ cells s' = ∅.
Proof.
  intros E Hf0 Hf. destruct (reach lt WO fuel0 u cs T s E Hf0) as (t & I & U & F & _).
  assert (length (elems t) <= adds cs) as Hl. { rewrite <- (fmap_length snd), F. apply (effects_len lt u cs []). }
  pose proof (i_hold _ _ _ _ I) as Q. split.
  - rewrite <- F, fmap_length. rewrite <- size_dom. 
    assert (dom (cells s) = (list_to_set (hd T :: (elems t).*1) : gset loc)) as ->.
    { apply set_eq. intros q. rewrite elem_of_dom, elem_of_list_to_set, elem_of_cons, elem_of_list_fmap. split.
      - intros Hq. apply (inv_only lt T s t q I) in Hq. unfold foot in Hq. destruct (decide (0 < cnt t q)) as [C|C].
        + right. apply cnt_elems in C as [a Ha]. by exists (q, a).
        + left. symmetry. apply bit_pos. lia.
      - intros Hq. apply (hold_live lt s (hd T) t q Q). unfold foot. destruct Hq as [->|[[q' a] [Hq' Ha]]]; [rewrite bit_same; lia|].
        cbn in Hq'. subst q'. assert (0 < cnt t q) by (apply cnt_elems; eauto). lia. }
    rewrite size_list_to_set by (by apply (hold_nodup s)). cbn. by rewrite fmap_length.
  - destruct (clear_inv lt (Fr := ∅) T s t fuel I ltac:(lia)) as (T' & s' & E1 & H1 & I1). unfold tree_destroy. rewrite E1. cbn [obind].
    unfold destory_node. destruct (hold_live lt s' (hd T') RbPure.E (hd T') (i_hold _ _ _ _ I1)) as [n Hn].
    { unfold foot. rewrite bit_same. lia. }
    rewrite (get_ok _ _ _ Hn). cbn [obind]. eexists. split; [done|]. cbn [cells]. apply map_eq. intros q. rewrite lookup_empty.
    destruct (decide (hd T' = q)) as [<-|N]; [apply lookup_delete|]. rewrite lookup_delete_ne by done.
    destruct (cells s' !! q) eqn:Eq; [|done]. assert (is_Some (cells s' !! q)) as X by eauto. apply (inv_only lt T' s' RbPure.E q I1) in X.
    unfold foot in X. cbn [cnt] in X. rewrite (bit_ne _ _ N) in X. lia.
Qed.

(** * C26 *)
Lemma last_right (k : list (fr A)) L x a : before k = L ++ [(x, a)] -> forall t, elems t = [] ->
  exists c l k1 k0, k = k1 ++ FR c l x a :: k0 /\ before k1 = [].
Proof.
  revert L. induction k as [|[c y b r|c l y b] k IH]; intros L E t Et; cbn [before] in E.
  - by destruct L.
  - destruct (IH L E t Et) as (c' & l & k1 & k0 & -> & B). exists c', l, (FL c y b r :: k1), k0. done.
  - rewrite app_assoc in E. apply app_inj_tail in E as [_ E]. injection E as -> ->. by exists c, l, [], k.
Qed.
Lemma dup_inv T s t fuel v i x a : inv lt (Fr := ∅) T s t -> strict lt (elems t).*2 -> length (elems t) < fuel ->
  elems t !! i = Some (x, a) -> same v a = true ->
  exists it s' r, emplace_unique lt fuel T v s = Ok (it, false, T, s') /\ cells s' = cells s /\
    right x s = Ok r /\
    it = match r with None => x | Some _ => match elems t !! S i with Some (y, _) => y | None => hd T end end.
Proof.
  intros I U Hf' Hx Hv. pose proof (i_hold _ _ _ _ I) as Q.
  pose proof (add_unique lt (swo_of lt WO) T s t v fuel I Hf') as X.
  replace (existsb (same v) (elems t).*2) with true in X; cycle 1.
  { symmetry. apply existsb_exists. exists a. split; [|done]. apply elem_of_list_In, elem_of_list_fmap. exists (x, a). split; [done|]. by eapply elem_of_list_lookup_2. }
  destruct X as [E1 I1]. 
  destruct (descend_split lt v t []) as (k & Ek & E2). rewrite app_nil_r in Ek.
  destruct (descend_sorted lt (swo_of lt WO) v t [] (i_srt _ _ _ _ I) (List.Forall_nil _) (List.Forall_nil _)) as [HB HA]. rewrite Ek in *.
  (* x is the last element before the hole *)
  assert (before k = take (S i) (elems t) /\ after k = drop (S i) (elems t)) as [EB EA].
  { assert (same v a = true) as Hv' by done. unfold RbSpec.same in Hv'. apply andb_true_iff in Hv' as [Hv1 Hv2]. apply negb_true_iff in Hv1, Hv2.
    assert (length (before k) = S i) as Len.
    { assert (i < length (before k)) as L1.
      { destruct (decide (i < length (before k))); [done|]. exfalso. rewrite <- E2 in Hx. rewrite lookup_app_r in Hx by lia.
        apply elem_of_list_lookup_2 in Hx. rewrite Forall_forall in HA. apply HA in Hx. cbn in Hx. congruence. }
      destruct (decide (length (before k) = S i)); [done|]. exfalso.
      destruct (before k !! S i) as [[y b]|] eqn:Ey; [|apply lookup_ge_None in Ey; lia].
      assert (elems t !! S i = Some (y, b)) as Ey' by (rewrite <- E2; by apply lookup_app_l_Some).
      assert (lt a b = true) as Hab.
      { apply (proj1 (sorted_lookup _ _) U i (S i)); [by rewrite list_lookup_fmap, Hx|by rewrite list_lookup_fmap, Ey'|lia]. }
      apply elem_of_list_lookup_2 in Ey. rewrite Forall_forall in HB. apply HB in Ey. cbn in Ey.
      rewrite (same_lt_l lt (swo_of lt WO) v a b Hv) in Ey. congruence. }
    rewrite <- E2, <- Len. split; [by rewrite take_app|by rewrite drop_app]. }
  assert (before k = take i (elems t) ++ [(x, a)]) as EB' by (rewrite EB; by apply take_S_r).
  destruct (last_right k _ x a EB' RbPure.E eq_refl) as (c & l & k1 & k0 & Ek' & B1).
  assert (t = plug (RbPure.T c l x a (plug RbPure.E k1)) k0) as Et.
  { change t with (plug t []) at 1. rewrite <- (plug_descend lt v t []), Ek, Ek', plug_app. done. }
  pose proof Q as Q'. rewrite Et in Q'. apply hold_focus in Q'. pose proof (at_cell _ _ _ _ _ _ _ _ _ _ Q') as Cx.
  eexists _, _, _. split; [exact E1|]. split; [done|]. split; [exact (right_ok _ _ _ Cx)|]. cbn [rt].
  destruct k1 as [|f k1].
  - rewrite Ek'. done.
  - destruct (id (plug RbPure.E (f :: k1))) eqn:En; [|by apply id_plug_none in En as [En _]].
    assert (exists c y b r, f = FL c y b r) as (c' & y & b & r & ->).
    { destruct f as [c' y b r|c' l' y b]; [eauto|]. cbn [before] in B1. apply app_eq_nil in B1 as [_ B1]. by apply app_eq_nil in B1 as [_ B1]. }
    rewrite Ek'. cbn [app pid floc]. rewrite Ek' in EA. cbn [app after] in EA.
    destruct (elems t !! S i) as [[z d]|] eqn:Ez.
    + rewrite (drop_S _ _ _ Ez) in EA. injection EA as -> -> _. done.
    + apply lookup_ge_None in Ez. rewrite drop_ge in EA by done. done.
Qed.
Theorem duplicate fuel0 cs T s fuel v : run lt fuel0 true cs = Ok (T, s) -> adds cs < fuel0 -> adds cs < fuel ->
  exists l, forward fuel (hd T) s = Ok l /\
    forall i x a, l !! i = Some (x, a) -> same v a = true ->
      exists it s' r, emplace_unique lt fuel T v s = Ok (it, false, T, s') /\ cells s' = cells s /\
        right x s = Ok r /\
        it = match r with None => x | Some _ => match l !! S i with Some (y, _) => y | None => hd T end end.
Proof.
  intros E Hf0 Hf. destruct (reach lt WO fuel0 true cs T s E Hf0) as (t & I & U & F & _).
  assert (length (elems t) <= adds cs) as Hl. { rewrite <- (fmap_length snd), F. apply (effects_len lt true cs []). }
  pose proof (i_hold _ _ _ _ I) as Q. assert (length (elems t) < fuel) as Hf' by lia. specialize (U eq_refl).
  exists (elems t). split; [by apply forward_ok|]. intros i x a Hx Hv. by apply (dup_inv T s t fuel v i x a).
Qed.
End t2.

(** * descending insertions *)
Section desc.
Local Open Scope Z_scope.
Definition down (n : nat) : list Z := Z.of_nat <$> rev (seq 0 n).
Lemma Z_order : weak_order Z.ltb.
Proof. split; intros; lia. Qed.
Lemma desc_steps fuel : forall (n : nat) T s x a y b r, inv Z.ltb (Fr := ∅) T s (RbPure.T Black (RbPure.T Red RbPure.E x a RbPure.E) y b r) -> red r = false -> a < b -> Z.of_nat n <= a ->
  (length (elems r) + 2 + n < fuel)%nat -> (1 <= ht r)%nat ->
  exists T' s' t', steps Z.ltb fuel false (Add <$> down n) T s = Ok (T', s') /\ inv Z.ltb (Fr := ∅) T' s' t' /\ ht t' = (n + S (ht r))%nat.
Proof.
  induction n as [|n IH]; intros T s x a y b r I Hr Hab Hn Hf Hh.
  - eexists T, s, _. split; [done|]. split; [exact I|]. cbn [ht]. lia.
  - unfold down. rewrite seq_S, rev_app_distr. cbn [rev app fmap list_fmap Nat.add steps step add]. unfold add.
    destruct (add_multi Z.ltb (swo_of _ Z_order) T s _ (Z.of_nat n) fuel I) as (T1 & s1 & t1 & E1 & H1 & Et & I1).
    { cbn [elems app length]. lia. }
    rewrite E1. cbn [obind].
    assert (t1 = RbPure.T Black (RbPure.T Red RbPure.E (made s) (Z.of_nat n) RbPure.E) x a (RbPure.T Black RbPure.E y b r)) as Et'.
    { rewrite Et. unfold insert. cbn [descend]. replace (Z.of_nat n <? b) with true by lia. replace (Z.of_nat n <? a) with true by lia.
      cbn [fixup fcol]. rewrite Hr. done. }
    rewrite Et' in I1. clear Et Et'.
    destruct (IH T1 s1 _ _ _ _ _ I1) as (T2 & s2 & t2 & E2 & I2 & Hh2); try done; try lia.
    { cbn [elems app length]. lia. } { cbn [ht]. lia. }
    exists T2, s2, t2. split; [exact E2|]. split; [done|]. rewrite Hh2. cbn [ht]. lia.
Qed.
Theorem descending n fuel : (3 <= n)%nat -> (n < fuel)%nat ->
  exists T s, run Z.ltb fuel false (Add <$> down n) = Ok (T, s) /\ tall s (top_of T s) (n - 1).
Proof.
  intros Hn Hf. destruct n as [|[|[|n]]]; [lia|lia|lia|].
  destruct (inv_new Z.ltb (Fr := ∅) (no_heap (A := Z))) as (T0 & s0 & E0 & _ & _ & I0); [done|done|]. unfold run. rewrite E0. cbn [obind].
  unfold down. rewrite !seq_S, !rev_app_distr. cbn [rev app fmap list_fmap Nat.add steps step add]. unfold add.
  destruct (add_multi Z.ltb (swo_of _ Z_order) T0 s0 _ (Z.of_nat (S (S n))) fuel I0) as (T1 & s1 & t1 & E1 & _ & -> & I1); [cbn; lia|].
  rewrite E1. cbn [obind]. unfold insert in I1. cbn [descend fixup paint plug] in I1.
  destruct (add_multi Z.ltb (swo_of _ Z_order) T1 s1 _ (Z.of_nat (S n)) fuel I1) as (T2 & s2 & t2 & E2 & _ & -> & I2); [cbn; lia|].
  rewrite E2. cbn [obind]. unfold insert in I2. cbn [descend] in I2. replace (Z.of_nat (S n) <? Z.of_nat (S (S n))) with true in I2 by lia.
  cbn [fixup fcol plug fill paint] in I2.
  destruct (add_multi Z.ltb (swo_of _ Z_order) T2 s2 _ (Z.of_nat n) fuel I2) as (T3 & s3 & t3 & E3 & _ & -> & I3); [cbn; lia|].
  rewrite E3. cbn [obind]. unfold insert in I3. cbn [descend] in I3. replace (Z.of_nat n <? Z.of_nat (S (S n))) with true in I3 by lia.
  replace (Z.of_nat n <? Z.of_nat (S n)) with true in I3 by lia.
  cbn [fixup fcol red plug fill paint] in I3.
  destruct (desc_steps fuel n T3 s3 _ _ _ _ _ I3) as (T4 & s4 & t4 & E4 & I4 & H4); try done; try lia.
  exists T4, s4. split; [exact E4|]. destruct (inv_top _ T4 s4 t4 I4) as [-> [p R]].
  replace (S (S (S n)) - 1)%nat with (ht t4) by (rewrite H4; cbn; lia). by apply (tall_of s4 t4 p).
Qed.
End desc.
