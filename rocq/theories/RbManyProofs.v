(** Programs over several sets keep the lists of the specification and every node belongs to one set. *)
From stdpp Require Import gmap list list_numbers sorting.
From Coq Require Import ZArith Lia ZifyBool ZifyNat ZifyN.
From Verif Require Import Base RbModel RbPure RbHeap RbInsert RbErase RbUnlink RbOps RbSearch RbAdd RbDel RbBalance RbSpec RbRun RbHist RbThms RbThms2 RbManySpec RbMany.
Local Open Scope outcome_scope.

Section many.
Context {A : Type} (lt : A -> A -> bool) (LT : swo lt).
Notation tr := (tr A).
Notation heap := (heap A).
Notation cmd := (cmd (A := A)).
Notation mcmd := (mcmd (A := A)).
Implicit Types (s : heap) (t : tr) (T : tree).
Notation srt := (StronglySorted (le2 lt)).
Notation entry := (option (tree * tr)).

Definition ft (q : loc) (o : entry) : nat := match o with Some (x, t) => foot (hd x) t q | None => 0 end.
Fixpoint tot (ps : list entry) (q : loc) : nat := match ps with [] => 0 | o :: ps => ft q o + tot ps q end.
Definition one (u : bool) s (o : entry) : Prop :=
  match o with
  | Some (x, t) => hold s (hd x) t /\ srt (elems t) /\ ct x = Z.of_nat (length (elems t)) /\ (u = true -> strict lt (elems t).*2)
  | None => True
  end.
Record minv (u : bool) (ps : list entry) s : Prop := {
  m_one : Forall (one u s) ps;
  m_wf : wf s;
  m_le : forall q, tot ps q <= 1;
  m_all : forall q, is_Some (cells s !! q) -> 0 < tot ps q
}.
Definition hnd (o : entry) : option tree := match o with Some (x, _) => Some x | None => None end.
Definition val (o : entry) : option (list A) := match o with Some (_, t) => Some (elems t).*2 | None => None end.
Definition handles (ps : list entry) : list (option tree) := hnd <$> ps.
Definition vals (ps : list entry) : list (option (list A)) := val <$> ps.

Lemma tot_app ps qs q : tot (ps ++ qs) q = tot ps q + tot qs q.
Proof. induction ps as [|p ps IH]; cbn [tot app]; lia. Qed.
Lemma tot_one o q : tot [o] q = ft q o.
Proof. cbn [tot]. lia. Qed.
Lemma tot_insert ps i o o' q : ps !! i = Some o -> tot (<[i := o']> ps) q + ft q o = tot ps q + ft q o'.
Proof.
  revert i. induction ps as [|p ps IH]; intros [|i] E; try done; cbn in E.
  - injection E as ->. change (<[0 := o']> (o :: ps)) with (o' :: ps). cbn [tot]. lia.
  - specialize (IH i E). change (<[S i := o']> (p :: ps)) with (p :: <[i := o']> ps). cbn [tot]. lia.
Qed.
Lemma tot_ge ps i o q : ps !! i = Some o -> ft q o <= tot ps q.
Proof. intros E. pose proof (tot_insert ps i o None q E) as X. cbn [ft] in X. lia. Qed.

Definition rest_of s T t : gmap loc (node A) := filter (fun p => foot (hd T) t (fst p) = 0) (cells s).
Lemma rest_in s T t q : foot (hd T) t q = 0 -> rest_of s T t !! q = cells s !! q.
Proof.
  intros E. unfold rest_of. destruct (cells s !! q) as [n|] eqn:C.
  - apply map_filter_lookup_Some. done.
  - apply map_filter_lookup_None. by left.
Qed.
Lemma rest_out s T t q : 0 < foot (hd T) t q -> rest_of s T t !! q = None.
Proof. intros E. apply map_filter_lookup_None. right. intros n _. cbn. lia. Qed.
Lemma to_inv u s T t : one u s (Some (T, t)) -> wf s -> inv lt (Fr := rest_of s T t) T s t.
Proof.
  intros (Q & S & C & _) W. split; try done.
  - intros q Hq. by rewrite rest_in.
  - intros q Hq. by apply rest_out.
Qed.
Lemma of_inv (u : bool) s T t Fr : inv lt (Fr := Fr) T s t -> (u = true -> strict lt (elems t).*2) -> one u s (Some (T, t)).
Proof. intros [Q W S C _ _] U. done. Qed.
Lemma one_frame u s s' o : (forall q, 0 < ft q o -> cells s' !! q = cells s !! q) -> one u s o -> one u s' o.
Proof. destruct o as [[T t]|]; [|done]. intros F (Q & R). split; [|done]. by apply (hold_frame s). Qed.
Lemma one_live u s o q : one u s o -> 0 < ft q o -> is_Some (cells s !! q).
Proof. destruct o as [[T t]|]; cbn; [|lia]. intros (Q & _) Hq. by apply (hold_live lt s (hd T) t q Q). Qed.
Lemma tot_live u ps s q : Forall (one u s) ps -> 0 < tot ps q -> is_Some (cells s !! q).
Proof.
  induction 1 as [|o ps Ho _ IH]; [cbn; lia|]. cbn [tot]. intros X.
  destruct (decide (0 < ft q o)); [by apply (one_live u s o)|]. apply IH. lia.
Qed.

(** the heap [s'] has a new tree besides what was in [s] *)
Lemma minv_frame (u : bool) ps s s' T t : minv u ps s -> inv lt (Fr := cells s) T s' t -> (u = true -> strict lt (elems t).*2) ->
  minv u (ps ++ [Some (T, t)]) s'.
Proof.
  intros [O W L M] I U.
  assert (forall q, 0 < tot ps q -> foot (hd T) t q = 0 /\ cells s' !! q = cells s !! q) as K.
  { intros q Hq. destruct (tot_live u ps s q O Hq) as [n Hn]. assert (foot (hd T) t q = 0) as Z.
    { destruct (decide (foot (hd T) t q = 0)); [done|]. rewrite (i_apart _ _ _ _ I q) in Hn by lia. done. }
    split; [done|]. apply (i_all _ _ _ _ I q Z). }
  split.
  - apply Forall_app. split; [|constructor; [by apply (of_inv u s' T t (cells s))|done]]. apply Forall_lookup. intros i o Hi.
    rewrite Forall_lookup in O. apply (one_frame u s); [|by apply (O i)]. intros q Hq. apply K. pose proof (tot_ge ps i o q Hi). lia.
  - apply (i_wf _ _ _ _ I).
  - intros q. rewrite tot_app, tot_one. cbn [ft]. destruct (decide (0 < tot ps q)) as [D|D].
    + destruct (K q D) as [-> _]. specialize (L q). lia.
    + pose proof (hold_le _ _ _ q (i_hold _ _ _ _ I)). unfold foot. lia.
  - intros q Hq. rewrite tot_app, tot_one. cbn [ft]. destruct (decide (foot (hd T) t q = 0)) as [Z|Z]; [|lia].
    rewrite (i_all _ _ _ _ I q Z) in Hq. apply M in Hq. lia.
Qed.
(** one of the trees changed *)
Lemma minv_update (u : bool) ps s i T t s' o : minv u ps s -> ps !! i = Some (Some (T, t)) ->
  one u s' o -> wf s' ->
  (forall q, ft q o = 0 -> cells s' !! q = rest_of s T t !! q) -> (forall q, 0 < ft q o -> rest_of s T t !! q = None) ->
  (forall q, ft q o <= 1) ->
  minv u (<[i := o]> ps) s'.
Proof.
  intros [O W L M] E Ho W' Hall Hap Hle.
  assert (forall q, tot (<[i := o]> ps) q + foot (hd T) t q = tot ps q + ft q o) as Ht.
  { intros q. apply (tot_insert ps i (Some (T, t)) o q E). }
  assert (forall q, foot (hd T) t q = 0 -> 0 < tot ps q -> ft q o = 0 /\ cells s' !! q = cells s !! q) as K.
  { intros q Hz Hq. destruct (tot_live u ps s q O Hq) as [n Hn]. assert (ft q o = 0) as Z.
    { destruct (decide (ft q o = 0)); [done|]. pose proof (Hap q ltac:(lia)) as X. rewrite rest_in, Hn in X by done. done. }
    split; [done|]. rewrite (Hall q Z). by apply rest_in. }
  assert (forall j p q, ps !! j = Some p -> j <> i -> 0 < ft q p -> foot (hd T) t q = 0 /\ 0 < tot ps q) as Kj.
  { intros j p q Hj Nj Hq. pose proof (tot_ge (<[i := None]> ps) j p q) as X. rewrite list_lookup_insert_ne in X by done. specialize (X Hj).
    pose proof (tot_insert ps i (Some (T, t)) None q E) as Y. cbn [ft] in Y. specialize (L q). lia. }
  split.
  - apply Forall_lookup. intros j p Hj. destruct (decide (j = i)) as [->|N].
    + rewrite list_lookup_insert in Hj by (by apply lookup_lt_Some in E). by injection Hj as <-.
    + rewrite list_lookup_insert_ne in Hj by done. rewrite Forall_lookup in O. apply (one_frame u s); [|by apply (O j)].
      intros q Hq. destruct (Kj j p q Hj N Hq) as [X Y]. by apply K.
  - done.
  - intros q. specialize (Ht q). specialize (L q). specialize (Hle q). destruct (decide (foot (hd T) t q = 0)) as [Z|Z]; [|lia].
    destruct (decide (0 < tot ps q)) as [D|D]; [|lia]. destruct (K q Z D). lia.
  - intros q Hq. specialize (Ht q). destruct (decide (ft q o = 0)) as [Z|Z]; [|pose proof (tot_ge ps i _ q E) as X; cbn [ft] in X; lia].
    rewrite (Hall q Z) in Hq. destruct (decide (foot (hd T) t q = 0)) as [Y|Y].
    + rewrite rest_in in Hq by done. apply M in Hq. lia.
    + rewrite rest_out in Hq by lia. by destruct Hq.
Qed.
Lemma minv_put (u : bool) ps s i T t T' s' t' : minv u ps s -> ps !! i = Some (Some (T, t)) ->
  inv lt (Fr := rest_of s T t) T' s' t' -> (u = true -> strict lt (elems t').*2) -> minv u (<[i := Some (T', t')]> ps) s'.
Proof.
  intros I E J U. apply (minv_update u ps s i T t s' (Some (T', t')) I E).
  - by apply (of_inv u s' T' t' (rest_of s T t)).
  - apply (i_wf _ _ _ _ J).
  - apply (i_all _ _ _ _ J).
  - apply (i_apart _ _ _ _ J).
  - intros q. pose proof (hold_le _ _ _ q (i_hold _ _ _ _ J)). cbn [ft]. unfold foot. lia.
Qed.
(** destruction *)
Lemma destroy_ok fuel T s t Fr : inv lt (Fr := Fr) T s t -> length (elems t) < fuel ->
  exists s', tree_destroy fuel T s = Ok s' /\ wf s' /\ forall q, cells s' !! q = Fr !! q.
Proof.
  intros I Hf. destruct (clear_inv lt T s t fuel I Hf) as (T' & s' & E1 & H1 & I1). unfold tree_destroy. rewrite E1. cbn [obind].
  unfold destory_node. destruct (hold_live lt s' (hd T') RbPure.E (hd T') (i_hold _ _ _ _ I1)) as [n Hn].
  { unfold foot. rewrite bit_same. lia. }
  rewrite (get_ok _ _ _ Hn). cbn [obind]. eexists. split; [done|]. cbn [cells made]. 
  assert (forall q, delete (hd T') (cells s') !! q = Fr !! q) as K.
  { intros q. destruct (decide (hd T' = q)) as [<-|N].
    - rewrite lookup_delete. symmetry. apply (i_apart _ _ _ _ I1). unfold foot. rewrite bit_same. lia.
    - rewrite lookup_delete_ne by done. apply (i_all _ _ _ _ I1). unfold foot. cbn [cnt]. by rewrite (bit_ne _ _ N). }
  split; [|done]. intros q Hq. cbn [cells made] in *. destruct (decide (hd T' = q)) as [<-|N]; [apply lookup_delete|].
  rewrite lookup_delete_ne by done. by apply (i_wf _ _ _ _ I1).
Qed.
Lemma minv_drop (u : bool) ps s i T t fuel : minv u ps s -> ps !! i = Some (Some (T, t)) -> length (elems t) < fuel ->
  exists s', tree_destroy fuel T s = Ok s' /\ minv u (<[i := None]> ps) s'.
Proof.
  intros I E Hf. pose proof (m_one _ _ _ I) as O. rewrite Forall_lookup in O. pose proof (O i _ E) as Ho.
  destruct (destroy_ok fuel T s t _ (to_inv u s T t Ho (m_wf _ _ _ I)) Hf) as (s' & E1 & W1 & C1). exists s'. split; [done|].
  apply (minv_update u ps s i T t s' None I E); try done; cbn [ft]; [lia|lia].
Qed.
Lemma minv_pop u ps s : minv u (ps ++ [None]) s -> minv u ps s.
Proof.
  intros [O W L M]. apply Forall_app in O as [O _]. assert (forall q, tot (ps ++ [None]) q = tot ps q) as K by (intros q; rewrite tot_app, tot_one; cbn; lia).
  split; try done; intros q; rewrite <- K; auto.
Qed.
(** two trees change places *)
Lemma minv_swap u ps s i j a b : minv u ps s -> ps !! i = Some a -> ps !! j = Some b -> minv u (<[j := a]> (<[i := b]> ps)) s.
Proof.
  intros [O W L M] Ei Ej.
  assert (forall q, tot (<[j := a]> (<[i := b]> ps)) q = tot ps q) as K.
  { intros q. pose proof (tot_insert ps i a b q Ei) as X. destruct (decide (j = i)) as [->|N].
    - assert (a = b) as -> by congruence. rewrite (list_insert_id ps i b Ej), (list_insert_id ps i b Ej). done.
    - pose proof (tot_insert (<[i := b]> ps) j b a q) as Y. rewrite list_lookup_insert_ne in Y by done. specialize (Y Ej). lia. }
  split; try done; [|intros q; rewrite K; auto..]. pose proof O as O'. rewrite Forall_lookup in O'. apply Forall_insert; [apply Forall_insert|]; eauto.
Qed.

(** * Building a tree *)
Lemma new_ok u ps s : minv u ps s ->
  exists T s', tree_new s = Ok (T, s') /\ inv lt (Fr := cells s) T s' RbPure.E /\ minv u (ps ++ [Some (T, RbPure.E)]) s'.
Proof.
  intros I. destruct (inv_new lt (Fr := cells s) s (m_wf _ _ _ I) eq_refl) as (T & s' & E & _ & _ & J). exists T, s'. split; [done|]. split; [done|].
  apply (minv_frame u ps s s' T _ I J). intros _. constructor.
Qed.
Lemma steps_adds fuel u vs : forall T s, steps lt fuel u (Add <$> vs) T s = add_all lt fuel u T vs s.
Proof.
  induction vs as [|v vs IH]; intros T s; [done|]. cbn [fmap list_fmap steps step add_all]. destruct (add lt fuel u T v s) as [[T' s']| |]; cbn [obind]; [apply IH|done|done].
Qed.
Lemma list_ok fuel u vs ps s : minv u ps s -> length vs < fuel ->
  exists T s' t, tree_list lt fuel u vs s = Ok (T, s') /\ minv u (ps ++ [Some (T, t)]) s' /\ (elems t).*2 = effects lt u (Add <$> vs) [].
Proof.
  intros I Hf. destruct (new_ok u ps s I) as (T0 & s0 & E0 & J0 & _). unfold tree_list. rewrite E0. cbn [obind]. rewrite <- steps_adds.
  destruct (steps_ok lt LT fuel u (Add <$> vs) T0 s0 _ J0) as [(T & s' & t & E1 & _ & J1 & U1 & F1 & _)|(_ & X & _)].
  - intros _. constructor.
  - rewrite adds_add. cbn. lia.
  - exists T, s', t. split; [done|]. split; [|done]. by apply (minv_frame u ps s).
  - by rewrite all_add in X.
Qed.
Lemma place_end v (l : list A) : (forall a, In a l -> lt v a = false) -> place lt v l = l ++ [v].
Proof. induction l as [|a l IH]; intros F; cbn; [done|]. rewrite (F a) by (by left). f_equal. apply IH. intros b Hb. apply F. by right. Qed.
Lemma copy_loop_ok fuel s0 H0 t0 : hold s0 H0 t0 -> srt (elems t0) -> length (elems t0) < fuel ->
  forall R f L T s t, elems t0 = L ++ R -> inv lt (Fr := cells s0) T s t -> (elems t).*2 = L.*2 -> good t -> length R <= f ->
  exists T' s' t', copy_loop lt fuel f T (first H0 R) H0 s = Ok (T', s') /\ inv lt (Fr := cells s0) T' s' t' /\ (elems t').*2 = (elems t0).*2 /\ good t'.
Proof.
  intros Q0 S0 Hf R. induction R as [|[x a] R IH]; intros f L T s t E I F G Hl.
  - exists T, s, t. split; [destruct f; cbn [copy_loop first]; by rewrite bool_decide_eq_true_2|]. split; [done|]. split; [by rewrite F, E, app_nil_r|done].
  - cbn [length first] in *. destruct f as [|f]; [lia|]. cbn [copy_loop].
    rewrite bool_decide_eq_false_2 by (apply (first_not_head H0 s0 t0 L x a R Q0 E)).
    assert (forall T s t, inv lt (Fr := cells s0) T s t -> hold s H0 t0) as K.
    { intros T1 s1 t1 I1. apply (hold_frame s0); [|done]. intros q Hq. destruct (hold_live lt s0 H0 t0 q Q0 Hq) as [n Hn].
      apply (i_all _ _ _ _ I1). destruct (decide (foot (hd T1) t1 q = 0)); [done|]. rewrite (i_apart _ _ _ _ I1 q) in Hn by lia. done. }
    rewrite (hold_key H0 s t0 x a (K _ _ _ I)) by (rewrite E; apply elem_of_app; right; left). cbn [obind].
    assert (length (elems t) < fuel) as Hf'.
    { rewrite <- (fmap_length snd), F, fmap_length. rewrite E, app_length in Hf. lia. }
    destruct (add_multi lt LT T s t a fuel I Hf') as (T1 & s1 & t1 & E1 & _ & -> & I1). rewrite E1. cbn [obind].
    rewrite (inc_ok H0 fuel s1 t0 L x a R (K _ _ _ I1) E Hf). cbn [obind].
    assert (forall b, In b (elems t).*2 -> lt a b = false) as Hend.
    { rewrite F. intros b Hb. rewrite E in S0. apply srt_app in S0 as (_ & _ & S0). rewrite Forall_forall in S0.
      apply elem_of_list_In, elem_of_list_fmap in Hb as (p & -> & Hp). specialize (S0 p Hp). apply Forall_cons in S0 as [S0 _]. exact S0. }
    apply (IH f (L ++ [(x, a)]) T1 s1 (insert lt (made s) a t)); [by rewrite <- app_assoc|done| | |lia].
    + rewrite (vals_insert lt LT _ _ _ (i_srt _ _ _ _ I)), (place_end _ _ Hend), F, fmap_app. done.
    + apply insert_good; [done|apply (i_hold _ _ _ _ I)|]. apply Forall_forall. intros p Hp. apply Hend, elem_of_list_In, elem_of_list_fmap. eauto.
Qed.
Lemma copy_ok fuel u ps s j T t : minv u ps s -> ps !! j = Some (Some (T, t)) -> length (elems t) < fuel ->
  exists T' s' t', tree_copy lt fuel T s = Ok (T', s') /\ minv u (ps ++ [Some (T', t')]) s' /\ (elems t').*2 = (elems t).*2 /\ good t' /\
    inv lt (Fr := cells s) T' s' t'.
Proof.
  intros I E Hf. pose proof (m_one _ _ _ I) as O. rewrite Forall_lookup in O. destruct (O j _ E) as (Q & S & C & U).
  destruct (new_ok u ps s I) as (T0 & s0 & E0 & J0 & M0). unfold tree_copy. rewrite E0. cbn [obind].
  assert (hold s0 (hd T) t) as Q'.
  { pose proof (m_one _ _ _ M0) as O0. rewrite Forall_lookup in O0. refine (proj1 (O0 j (Some (T, t)) _)). rewrite lookup_app_l; [done|]. by apply lookup_lt_Some in E. }
  rewrite (tbegin_ok (hd T) s0 t Q'). cbn [obind].
  destruct (copy_loop_ok fuel s (hd T) t Q S Hf (elems t) fuel [] T0 s0 _ eq_refl J0 eq_refl) as (T' & s' & t' & E1 & J1 & F1 & G1).
  { exists 0. constructor. } { lia. }
  exists T', s', t'. split; [done|]. split; [|split; [done|split; [done|done]]]. apply (minv_frame u ps s); [done|done|]. intros X. rewrite F1. auto.
Qed.

(** * The commands *)
Lemma swap_last u ps s i a b : minv u (ps ++ [b]) s -> ps !! i = Some a -> minv u (<[i := b]> ps ++ [a]) s.
Proof.
  intros I E. pose proof (lookup_lt_Some _ _ _ E) as Hl.
  assert ((ps ++ [b]) !! i = Some a) as E1 by (by rewrite lookup_app_l).
  assert ((ps ++ [b]) !! length ps = Some b) as E2 by (by rewrite lookup_app_r, Nat.sub_diag by lia).
  pose proof (minv_swap u _ s i (length ps) a b I E1 E2) as X. rewrite insert_app_l in X by done.
  replace (length ps) with (length (<[i := b]> ps) + 0) in X by (rewrite insert_length; lia).
  rewrite insert_app_r in X. exact X.
Qed.
Lemma drop_last u ps s T t fuel : minv u (ps ++ [Some (T, t)]) s -> length (elems t) < fuel ->
  exists s', tree_destroy fuel T s = Ok s' /\ minv u ps s'.
Proof.
  intros I Hf. destruct (minv_drop u _ s (length ps) T t fuel I) as (s' & E & J); [by rewrite lookup_app_r, Nat.sub_diag by lia|done|].
  exists s'. split; [done|]. replace (length ps) with (length ps + 0) in J by lia. rewrite insert_app_r in J. by apply minv_pop.
Qed.
Lemma take_ok u ps s i X x R r fuel : minv u (ps ++ [Some (R, r)]) s -> ps !! i = Some (Some (X, x)) -> length (elems x) < fuel ->
  exists s', tree_take fuel X R s = Ok (R, s') /\ minv u (<[i := Some (R, r)]> ps) s'.
Proof.
  intros I E Hf. pose proof (swap_last u ps s i _ _ I E) as I'. destruct (drop_last u _ s X x fuel I' Hf) as (s' & E1 & J).
  exists s'. unfold tree_take, tree_swap. rewrite E1. done.
Qed.

Lemma live_cases ps i :
  (exists T t, ps !! i = Some (Some (T, t)) /\ live (handles ps) i = Some T /\ live (vals ps) i = Some (elems t).*2) \/
  (live (handles ps) i = None /\ live (vals ps) i = None).
Proof.
  unfold live, handles, vals. rewrite !list_lookup_fmap. destruct (ps !! i) as [[[T t]|]|]; cbn; [left|by right|by right]. eauto.
Qed.
Lemma handles_app ps qs : handles (ps ++ qs) = handles ps ++ handles qs.
Proof. apply fmap_app. Qed.
Lemma vals_app ps qs : vals (ps ++ qs) = vals ps ++ vals qs.
Proof. apply fmap_app. Qed.
Lemma handles_insert ps i o : handles (<[i := o]> ps) = <[i := hnd o]> (handles ps).
Proof. apply list_fmap_insert. Qed.
Lemma vals_insert' ps i o : vals (<[i := o]> ps) = <[i := val o]> (vals ps).
Proof. apply list_fmap_insert. Qed.

Definition short (n : nat) (ls : list (option (list A))) : Prop :=
  forall i l, ls !! i = Some (Some l) -> length l <= n.
Lemma short_at n ps i T t : short n (vals ps) -> ps !! i = Some (Some (T, t)) -> length (elems t) <= n.
Proof.
  intros S E. rewrite <- (fmap_length snd). apply (S i). unfold vals. by rewrite list_lookup_fmap, E.
Qed.
Lemma short_le n m ls : short n ls -> n <= m -> short m ls.
Proof. intros S Hn i l E. specialize (S i l E). lia. Qed.
Lemma short_app n ls l : short n ls -> length l <= n -> short n (ls ++ [Some l]).
Proof.
  intros S Hl i m E. apply lookup_app_Some in E as [E|[_ E]]; [by apply (S i)|]. destruct (i - length ls) as [|k]; cbn in E; [|done].
  by injection E as <-.
Qed.
Lemma short_set n ls i o : short n ls -> (forall l, o = Some l -> length l <= n) -> short n (<[i := o]> ls).
Proof.
  intros S Ho j l E. destruct (decide (i = j)) as [->|N].
  - pose proof (lookup_lt_Some _ _ _ E) as Hl. rewrite insert_length in Hl. rewrite list_lookup_insert in E by done. injection E as E. by apply Ho.
  - rewrite list_lookup_insert_ne in E by done. by apply (S j).
Qed.
Lemma live_short n ls i l : short n ls -> live ls i = Some l -> length l <= n.
Proof. intros S E. unfold live in E. destruct (ls !! i) as [[m|]|] eqn:X; cbn in E; try done. injection E as ->. by apply (S i). Qed.
Lemma meffect_short u c ls n : short n ls -> short (n + madd c) (meffect lt u c ls).
Proof.
  intros S. assert (forall vs, length (effects lt u (Add <$> vs) []) <= length vs) as Hv.
  { intros vs. pose proof (effects_len lt u (Add <$> vs) []) as X. rewrite adds_add in X. exact X. }
  destruct c as [vs|j|j|i j|i j|i vs|i j|i|i c]; cbn [meffect madd].
  - apply short_app; [apply (short_le n); [done|lia]|]. specialize (Hv vs). lia.
  - destruct (live ls j) as [l|] eqn:E; [|by apply (short_le n); [|lia]]. apply short_app; [apply (short_le n); [done|lia]|].
    pose proof (live_short n ls j l S E). lia.
  - destruct (live ls j) as [l|] eqn:E; [|by apply (short_le n); [|lia]]. pose proof (live_short n ls j l S E).
    apply short_app; [|lia]. apply short_set; [apply (short_le n); [done|lia]|]. intros m Hm. injection Hm as <-. cbn. lia.
  - destruct (live ls i) as [k|] eqn:E1, (live ls j) as [l|] eqn:E; try (by apply (short_le n); [|lia]). pose proof (live_short n ls j l S E).
    apply short_set; [apply (short_le n); [done|lia]|]. intros m Hm. injection Hm as <-. lia.
  - destruct (live ls i) as [k|] eqn:E1, (live ls j) as [l|] eqn:E; try (by apply (short_le n); [|lia]). pose proof (live_short n ls j l S E).
    apply short_set; [apply short_set; [apply (short_le n); [done|lia]|]|]; intros m Hm; injection Hm as <-; cbn; lia.
  - destruct (live ls i) as [k|] eqn:E1; [|by apply (short_le n); [|lia]]. apply short_set; [apply (short_le n); [done|lia]|].
    intros m Hm. injection Hm as <-. specialize (Hv vs). lia.
  - destruct (live ls i) as [k|] eqn:E1, (live ls j) as [l|] eqn:E; try (by apply (short_le n); [|lia]).
    pose proof (live_short n ls j l S E). pose proof (live_short n ls i k S E1).
    apply short_set; [apply short_set; [apply (short_le n); [done|lia]|]|]; intros m Hm; injection Hm as <-; lia.
  - destruct (live ls i) as [k|] eqn:E1; [|by apply (short_le n); [|lia]]. apply short_set; [apply (short_le n); [done|lia]|]. done.
  - destruct (live ls i) as [k|] eqn:E1; [|apply (short_le n); [done|lia]]. pose proof (live_short n ls i k S E1).
    pose proof (effect_len lt u c k) as X. apply short_set; [apply (short_le n); [done|lia]|].
    intros m Hm. injection Hm as <-. destruct c; cbn [is_add] in *; lia.
Qed.

Lemma mstep_ok fuel u c ps s n : minv u ps s -> short n (vals ps) -> n + madd c < fuel ->
  (exists ps' s', mstep lt fuel u c (handles ps) s = Ok (handles ps', s') /\ minv u ps' s' /\ vals ps' = meffect lt u c (vals ps)) \/
  (mstep lt fuel u c (handles ps) s = Fuel /\ erases c = true).
Proof.
  intros I Sh Hf. pose proof (fun i T t E => short_at n ps i T t Sh E) as Hs. clear Sh.
  pose proof (m_one _ _ _ I) as O. rewrite Forall_lookup in O.
  destruct c as [vs|j|j|i j|i j|i vs|i j|i|i c]; cbn [mstep meffect madd erases] in *.
  - left. destruct (list_ok fuel u vs ps s I) as (T & s' & t & E & J & F); [lia|]. rewrite E. cbn [obind].
    exists (ps ++ [Some (T, t)]), s'. rewrite handles_app, vals_app. split; [done|]. split; [done|]. cbn. by rewrite F.
  - left. destruct (live_cases ps j) as [(T & t & E & -> & ->)|[-> ->]]; [|by exists ps, s].
    destruct (copy_ok fuel u ps s j T t I E) as (T' & s' & t' & E1 & J & F & _); [specialize (Hs _ _ _ E); lia|]. rewrite E1. cbn [obind].
    exists (ps ++ [Some (T', t')]), s'. rewrite handles_app, vals_app. split; [done|]. split; [done|]. cbn. by rewrite F.
  - left. destruct (live_cases ps j) as [(T & t & E & -> & ->)|[-> ->]]; [|by exists ps, s].
    destruct (new_ok u ps s I) as (T0 & s0 & E0 & _ & J). unfold tree_move. rewrite E0. cbn [obind tree_swap].
    exists (<[j := Some (T0, RbPure.E)]> ps ++ [Some (T, t)]), s0. rewrite handles_app, vals_app, handles_insert, vals_insert'.
    split; [done|]. split; [|done]. by apply swap_last.
  - left. destruct (live_cases ps i) as [(X & x & Ei & -> & ->)|[-> ->]]; [|by exists ps, s].
    destruct (live_cases ps j) as [(T & t & E & -> & ->)|[-> ->]]; [|by exists ps, s].
    destruct (copy_ok fuel u ps s j T t I E) as (T' & s' & t' & E1 & J & F & _); [specialize (Hs _ _ _ E); lia|]. rewrite E1. cbn [obind].
    destruct (take_ok u ps s' i X x T' t' fuel J Ei) as (s2 & E2 & J2); [specialize (Hs _ _ _ Ei); lia|]. rewrite E2. cbn [obind].
    eexists _, s2. split; [|split; [exact J2|]]; [by rewrite handles_insert|]. rewrite vals_insert'. cbn. by rewrite F.
  - left. destruct (live_cases ps i) as [(X & x & Ei & -> & ->)|[-> ->]]; [|by exists ps, s].
    destruct (live_cases ps j) as [(T & t & E & -> & ->)|[-> ->]]; [|by exists ps, s].
    destruct (new_ok u ps s I) as (T0 & s0 & E0 & _ & J). unfold tree_move. rewrite E0. cbn [obind tree_swap].
    pose proof (swap_last u ps s0 j _ _ J E) as J1. change (Some T0) with (hnd (Some (T0, RbPure.E : tr))). rewrite <- handles_insert.
    assert (exists Y y, <[j := Some (T0, RbPure.E)]> ps !! i = Some (Some (Y, y)) /\ length (elems y) <= n) as (Y & y & Ey & Hy).
    { destruct (decide (j = i)) as [->|N].
      - exists T0, RbPure.E. split; [|cbn; lia]. apply list_lookup_insert. by apply lookup_lt_Some in Ei.
      - rewrite list_lookup_insert_ne by done. exists X, x. split; [done|]. by apply (Hs i X). }
    destruct (live_cases (<[j := Some (T0, RbPure.E)]> ps) i) as [(Y' & y' & Ey' & -> & _)|[Z _]]; cycle 1.
    { unfold live, handles in Z. rewrite list_lookup_fmap, Ey in Z. done. }
    rewrite Ey in Ey'. injection Ey' as <- <-.
    destruct (take_ok u _ s0 i Y y T t fuel J1 Ey) as (s2 & E2 & J2); [lia|]. rewrite E2. cbn [obind].
    eexists _, s2. split; [|split; [exact J2|]]; [by rewrite !handles_insert|]. by rewrite !vals_insert'.
  - left. destruct (live_cases ps i) as [(X & x & Ei & -> & ->)|[-> ->]]; [|by exists ps, s].
    destruct (list_ok fuel u vs ps s I) as (T & s' & t & E & J & F); [lia|]. rewrite E. cbn [obind].
    destruct (take_ok u ps s' i X x T t fuel J Ei) as (s2 & E2 & J2); [specialize (Hs _ _ _ Ei); lia|]. rewrite E2. cbn [obind].
    eexists _, s2. split; [|split; [exact J2|]]; [by rewrite handles_insert|]. rewrite vals_insert'. cbn. by rewrite F.
  - left. destruct (live_cases ps i) as [(X & x & Ei & -> & ->)|[-> ->]]; [|by exists ps, s].
    destruct (live_cases ps j) as [(T & t & E & -> & ->)|[-> ->]]; [|by exists ps, s]. cbn [tree_swap].
    eexists _, s. split; [|split; [by apply (minv_swap u ps s i j _ _ I Ei E)|]]; [by rewrite !handles_insert|by rewrite !vals_insert'].
  - left. destruct (live_cases ps i) as [(X & x & Ei & -> & ->)|[-> ->]]; [|by exists ps, s].
    destruct (minv_drop u ps s i X x fuel I Ei) as (s' & E & J); [specialize (Hs _ _ _ Ei); lia|]. rewrite E. cbn [obind].
    eexists _, s'. split; [|split; [exact J|]]; [by rewrite handles_insert|by rewrite vals_insert'].
  - destruct (live_cases ps i) as [(X & x & Ei & -> & ->)|[-> ->]]; [|left; by exists ps, s].
    pose proof (O i _ Ei) as Ho. assert (u = true -> strict lt (elems x).*2) as U by apply Ho.
    destruct (step_ok lt LT X s x fuel u c (to_inv u s X x Ho (m_wf _ _ _ I)) U) as [(T' & s' & t' & E1 & _ & J1 & F1 & _)|(E1 & X1 & _)].
    + specialize (Hs _ _ _ Ei). lia.
    + left. rewrite E1. cbn [obind]. exists (<[i := Some (T', t')]> ps), s'. rewrite handles_insert, vals_insert'. split; [done|].
      split; [|cbn; by rewrite F1]. apply (minv_put u ps s i X x T' s' t' I Ei J1). intros Hu. rewrite F1, Hu. apply strict_effect; [done|]. auto.
    + right. rewrite E1. split; [done|]. by destruct c.
Qed.
Lemma msteps_ok fuel u cs : forall ps s n, minv u ps s -> short n (vals ps) -> n + madds cs < fuel ->
  (exists ps' s', msteps lt fuel u cs (handles ps) s = Ok (handles ps', s') /\ minv u ps' s' /\ vals ps' = meffects lt u cs (vals ps)) \/
  (msteps lt fuel u cs (handles ps) s = Fuel /\ existsb erases cs = true).
Proof.
  induction cs as [|c cs IH]; intros ps s n I Sh Hf.
  - left. by exists ps, s.
  - assert (madds (c :: cs) = madd c + madds cs) as X by done. rewrite X in Hf. cbn [msteps existsb].
    destruct (mstep_ok fuel u c ps s n I Sh) as [(ps1 & s1 & E1 & I1 & F1)|[E1 X1]]; [lia| |].
    + rewrite E1. cbn [obind]. destruct (IH ps1 s1 (n + madd c) I1) as [(ps2 & s2 & E2 & I2 & F2)|[E2 X2]].
      * rewrite F1. by apply meffect_short.
      * lia.
      * left. exists ps2, s2. rewrite E2, F2, F1. done.
      * right. rewrite E2, X2. by rewrite orb_true_r.
    + right. rewrite E1, X1. done.
Qed.
Lemma madds_eff u cs : forall ls n, short n ls -> short (n + madds cs) (meffects lt u cs ls).
Proof.
  induction cs as [|c cs IH]; intros ls n S; [by replace (n + madds []) with n by (unfold madds; cbn; lia)|].
  replace (n + madds (c :: cs)) with (n + madd c + madds cs) by (unfold madds; cbn; lia). apply IH. by apply meffect_short.
Qed.
Lemma mrun_ok fuel u cs : madds cs < fuel ->
  (exists ps s, mrun lt fuel u cs = Ok (handles ps, s) /\ minv u ps s /\ vals ps = meffects lt u cs []) \/
  (mrun lt fuel u cs = Fuel /\ existsb erases cs = true).
Proof.
  intros Hf. apply (msteps_ok fuel u cs [] no_heap 0); [|intros i l E; done|lia]. split.
  - constructor.
  - intros q _. apply lookup_empty.
  - intros q. cbn. lia.
  - intros q Hq. cbn [no_heap cells] in Hq. rewrite lookup_empty in Hq. by destruct Hq.
Qed.
(** how many nodes there are *)
Lemma foot_size u s T t : one u s (Some (T, t)) -> size (list_to_set (hd T :: (elems t).*1) : gset loc) = S (length (elems t)).
Proof. intros (Q & _). rewrite size_list_to_set by (by apply (hold_nodup s)). cbn. by rewrite fmap_length. Qed.
Definition area (o : entry) : gset loc := match o with Some (x, t) => list_to_set (hd x :: (elems t).*1) | None => ∅ end.
Lemma area_ft o q : q ∈ area o <-> 0 < ft q o.
Proof.
  destruct o as [[T t]|]; cbn [area ft]; [|split; [intros X; by apply elem_of_empty in X|lia]].
  rewrite elem_of_list_to_set, elem_of_cons, elem_of_list_fmap. unfold foot. split.
  - intros [->|[[q' a] [-> Ha]]]; [rewrite bit_same; lia|]. cbn. assert (0 < cnt t q') by (apply cnt_elems; eauto). lia.
  - intros Hq. destruct (decide (0 < cnt t q)) as [C|C].
    + right. apply cnt_elems in C as [a Ha]. by exists (q, a).
    + left. symmetry. apply bit_pos. lia.
Qed.
Lemma areas ps q : q ∈ ⋃ (area <$> ps) <-> 0 < tot ps q.
Proof.
  induction ps as [|o ps IH]; cbn [tot].
  - split; [intros X; by apply elem_of_empty in X|lia].
  - change (⋃ (area <$> o :: ps)) with (area o ∪ ⋃ (area <$> ps)). rewrite elem_of_union, IH, area_ft. lia.
Qed.
Lemma area_size u s o : one u s o -> size (area o) = match val o with Some l => S (length l) | None => 0 end.
Proof. destruct o as [[T t]|]; [|done]. intros H. cbn [area val]. rewrite (foot_size u s T t H), fmap_length. done. Qed.
Lemma areas_size u s ps : Forall (one u s) ps -> (forall q, tot ps q <= 1) -> size (⋃ (area <$> ps)) = nodes (vals ps).
Proof.
  induction 1 as [|o ps Ho _ IH]; intros L; [done|]. change (⋃ (area <$> o :: ps)) with (area o ∪ ⋃ (area <$> ps)).
  rewrite size_union; cycle 1.
  { intros q H1 H2. apply area_ft in H1. apply areas in H2. specialize (L q). cbn [tot] in L. lia. }
  rewrite (area_size u s o Ho), IH; [done|]. intros q. specialize (L q). cbn [tot] in L. lia.
Qed.
Lemma minv_size u ps s : minv u ps s -> size (cells s) = nodes (vals ps).
Proof.
  intros [O W L M]. rewrite <- (areas_size u s ps O L), <- size_dom. f_equal. apply set_eq. intros q. rewrite elem_of_dom, areas. split; [apply M|].
  by apply (tot_live u).
Qed.
End many.

Section results.
Context {A : Type} (lt : A -> A -> bool) (WO : weak_order lt).
Let LT : swo lt := swo_of lt WO.

Theorem many_programs fuel u cs : madds cs < fuel ->
  (exists hs s, mrun lt fuel u cs = Ok (hs, s) /\
     (forall i, match live (meffects lt u cs []) i with Some l => holds fuel hs s i l | None => live hs i = None end) /\
     size (cells s) = nodes (meffects lt u cs [])) \/
  (mrun lt fuel u cs = Fuel /\ existsb erases cs = true).
Proof.
  intros Hf. destruct (mrun_ok lt LT fuel u cs Hf) as [(ps & s & E & I & F)|X]; [left|by right].
  exists (handles ps), s. split; [done|]. split; [|rewrite <- F; by apply (minv_size lt u)].
  assert (short (madds cs) (vals ps)) as Sh.
  { rewrite F. apply (madds_eff lt u cs [] 0). intros i l X. done. }
  intros i. rewrite <- F. destruct (live_cases ps i) as [(T & t & Ei & H1 & ->)|[H1 ->]]; [|done].
  pose proof (m_one _ _ _ _ I) as O. rewrite Forall_lookup in O. destruct (O i _ Ei) as (Q & S & C & U).
  exists T, (elems t). split; [done|]. split; [|split; [done|by rewrite fmap_length]]. apply forward_ok; [done|].
  pose proof (short_at (madds cs) ps i T t Sh Ei). lia.
Qed.
Theorem many_values fuel u cs : madds cs < fuel -> existsb erases cs = false ->
  exists hs s, mrun lt fuel u cs = Ok (hs, s) /\
    (forall i, match live (meffects lt u cs []) i with Some l => holds fuel hs s i l | None => live hs i = None end) /\
    size (cells s) = nodes (meffects lt u cs []).
Proof. intros Hf X. destruct (many_programs fuel u cs Hf) as [Y|[_ Y]]; [done|congruence]. Qed.
(** a copy obeys the red-black rules whatever the shape of the original *)
Theorem copy_balanced fuel0 u cs hs s fuel j T : mrun lt fuel0 u cs = Ok (hs, s) -> madds cs < fuel0 -> madds cs < fuel ->
  live hs j = Some T -> exists T' s', tree_copy lt fuel T s = Ok (T', s') /\ balanced T' s' /\
    exists p p', forward fuel (hd T) s = Ok p /\ forward fuel (hd T') s' = Ok p' /\ p'.*2 = p.*2.
Proof.
  intros E Hf0 Hf HL. destruct (mrun_ok lt LT fuel0 u cs Hf0) as [(ps & s1 & E1 & I & F)|[X _]]; [|congruence].
  rewrite E in E1. injection E1 as -> <-.
  assert (short (madds cs) (vals ps)) as Sh. { rewrite F. apply (madds_eff lt u cs [] 0). intros i l X. done. }
  destruct (live_cases ps j) as [(T1 & t & Ej & H1 & _)|[H1 _]]; rewrite H1 in HL; [|done]. injection HL as ->.
  pose proof (short_at (madds cs) ps j T t Sh Ej) as Hl.
  destruct (copy_ok lt LT fuel u ps s j T t I Ej) as (T' & s' & t' & E2 & J & F2 & G & J'); [lia|]. exists T', s'. split; [done|]. split.
  - pose proof (hold_at _ _ _ (i_hold _ _ _ _ J')) as P. destruct G as [m G].
    exists m. unfold top_of. rewrite (at_head _ _ _ _ _ _ P). cbn [plug pa]. change (Some (hd T') ≫= fun _ => None) with (None : option loc).
    replace Black with (cc t'); [|unfold cc; by rewrite (proj2 (i_hold _ _ _ _ J'))].
    eapply (rb_of s' t'); [exact (at_rep _ _ _ _ _ _ _ _ P)|done].
  - pose proof (m_one _ _ _ _ I) as O. rewrite Forall_lookup in O. destruct (O j _ Ej) as (Q & _).
    exists (elems t), (elems t'). split; [apply forward_ok; [done|lia]|]. split; [|done]. apply forward_ok; [apply (i_hold _ _ _ _ J')|].
    rewrite <- (fmap_length snd), F2, fmap_length. lia.
Qed.
End results.
