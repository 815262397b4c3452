(** The pieces the members of shared_ptr and weak_ptr are made of. *)
From stdpp Require Import gmap.
From Coq Require Import ZArith Lia.
From Verif Require Import Base GraphModel GraphSpec GraphProofs GraphRelease.
Local Open Scope nat_scope.
Set Default Goal Selector "1".

(** The counters are right and the handles are [m] and [n]; [e] and [ew] are counts in transit. *)
Definition st (K : list raw) (e ew : option nat) (m n : gmap loc handle) (s : state) : Prop :=
  inv K e ew ∅ s /\ shs s = m /\ wks s = n.
Definition room (m n : gmap loc handle) (j : nat) : Prop := (Z.of_nat (size m + size n + j) + 8 < 2 ^ 64)%Z.
Lemma room_le m n j j' : room m n j -> j' <= j -> room m n j'.
Proof. unfold room. lia. Qed.

Lemma wellf_shs K D s m : (forall o i, is_Some (m !! Field o i) <-> is_Some (shs s !! Field o i)) -> wellf K D s -> wellf K D (with_shs m s).
Proof. intros H W b o i. specialize (W b o i). destruct b; cbn in *; [|exact W]. destruct W as [W1 W2]. split; [rewrite H; exact W1|]. intros. rewrite H. by eapply W2. Qed.
Lemma wellf_wks K D s m : (forall o i, is_Some (m !! Field o i) <-> is_Some (wks s !! Field o i)) -> wellf K D s -> wellf K D (with_wks m s).
Proof. intros H W b o i. specialize (W b o i). destruct b; cbn in *; [exact W|]. destruct W as [W1 W2]. split; [rewrite H; exact W1|]. intros. rewrite H. by eapply W2. Qed.
Lemma size_same (m m' : gmap loc handle) : (forall l, is_Some (m' !! l) <-> is_Some (m !! l)) -> size m' = size m.
Proof.
  intros H. rewrite <- (size_dom (D := gset loc) m), <- (size_dom (D := gset loc) m'). f_equal.
  apply set_eq. intros l. by rewrite !elem_of_dom.
Qed.
Lemma hc_lookup (m : gmap loc handle) l h : m !! l = Some h -> (hc <$> m) !! l = Some (hc h).
Proof. intros E. by rewrite lookup_fmap, E. Qed.

Lemma st_nxt K e ew m n s : st K e ew m n s -> nxt s = length K.
Proof. intros ((C & _) & _). apply (core_nxt _ _ _ _ _ C). Qed.

(** ** Counting up *)
Lemma st_copy K ew m n s l h : st K None ew m n s -> m !! l = Some h ->
  exists s', shared_count_copy (hc h) s = Ok s' /\ st K (hc h) ew m n s'.
Proof.
  intros (I & <- & <-) E. destruct (hc h) as [g|] eqn:Eg; [|by exists s].
  pose proof I as (C & W & F). pose proof (inv_bounds _ _ _ _ _ g I) as [Ba _].
  assert (P : 0 < A None s g).
  { unfold A. apply hc_lookup in E. rewrite Eg in E. pose proof (members_pos _ _ _ E). lia. }
  destruct (copy_shared_ok _ _ _ _ _ g C P) as (s' & E1 & C' & S & O); [lia|].
  exists s'. split; [done|]. split; [|apply S].
  eapply (inv_same _ _ _ _ _ ∅ ∅ _ _ I); [|done..]. eapply core_ext; [exact C'| |done].
  intros h'. unfold upd, A. case_decide as X; [subst; rewrite bump_self, bump_none; lia|by rewrite bump_ne, bump_none].
Qed.
Lemma st_wcopy K e m n s g : st K e None m n s -> (forall g', g = Some g' -> 0 < A e s g' + B None s g') ->
  exists s', weak_count_copy g s = Ok s' /\ st K e g m n s'.
Proof.
  intros (I & <- & <-) P. destruct g as [g|]; [|by exists s].
  pose proof I as (C & W & F). pose proof (inv_bounds _ _ _ _ _ g I) as [_ Bb].
  destruct (copy_weak_ok _ _ _ _ _ g C) as (s' & E1 & C' & S & O); [auto|lia|].
  exists s'. split; [done|]. split; [|apply S].
  eapply (inv_same _ _ _ _ _ ∅ ∅ _ _ I); [|done..]. eapply core_ext; [exact C'|done|].
  intros h'. unfold upd, B. case_decide as X; [subst; rewrite bump_self, bump_none; lia|by rewrite bump_ne, bump_none].
Qed.
Lemma st_wcopy_s K e m n s l h : st K e None m n s -> m !! l = Some h ->
  exists s', weak_count_copy (hc h) s = Ok s' /\ st K e (hc h) m n s'.
Proof.
  intros S E. apply st_wcopy; [done|]. intros g Eg. destruct S as (I & <- & <-). unfold A.
  apply hc_lookup in E. rewrite Eg in E. pose proof (members_pos _ _ _ E). lia.
Qed.
Lemma st_wcopy_w K e m n s l h : st K e None m n s -> n !! l = Some h ->
  exists s', weak_count_copy (hc h) s = Ok s' /\ st K e (hc h) m n s'.
Proof.
  intros S E. apply st_wcopy; [done|]. intros g Eg. destruct S as (I & <- & <-). unfold B.
  apply hc_lookup in E. rewrite Eg in E. pose proof (members_pos _ _ _ E). lia.
Qed.

(** ** Handles *)
Lemma st_shs K e e' ew m n s m' : st K e ew m n s ->
  (forall o i, is_Some (m' !! Field o i) <-> is_Some (m !! Field o i)) -> room m' n 0 ->
  (forall g, members (hc <$> m') g + bump e' g = members (hc <$> m) g + bump e g) ->
  st K e' ew m' n (with_shs m' s).
Proof.
  intros (I & <- & <-) H R HM. split; [|done]. apply (inv_shs _ e); [done|done| |].
  - apply wellf_shs; [done|apply I].
  - unfold fits, room in *. cbn. lia.
Qed.
Lemma st_wks K e ew ew' m n s n' : st K e ew m n s ->
  (forall o i, is_Some (n' !! Field o i) <-> is_Some (n !! Field o i)) -> room m n' 0 ->
  (forall g, members (hc <$> n') g + bump ew' g = members (hc <$> n) g + bump ew g) ->
  st K e ew' m n' (with_wks n' s).
Proof.
  intros (I & <- & <-) H R HM. split; [|done]. apply (inv_wks _ e ew); [done|done| |].
  - apply wellf_wks; [done|apply I].
  - unfold fits, room in *. cbn. lia.
Qed.
Lemma st_room K e ew m n s : st K e ew m n s -> room m n 0.
Proof. intros ((_ & _ & F) & <- & <-). unfold fits, room in *. lia. Qed.
Lemma insert_same_dom (m : gmap loc handle) l h0 h l' : m !! l = Some h0 -> is_Some (<[l := h]> m !! l') <-> is_Some (m !! l').
Proof. intros E. rewrite lookup_insert_is_Some'. split; [intros [<-|?]; [by rewrite E|done]|auto]. Qed.
Lemma insert_room m n l h0 h : m !! l = Some h0 -> room m n 0 -> room (<[l := h]> m) n 0.
Proof. intros E. unfold room. rewrite map_size_insert_Some by (by rewrite E). done. Qed.
Lemma insert_room' m n l h0 h : n !! l = Some h0 -> room m n 0 -> room m (<[l := h]> n) 0.
Proof. intros E. unfold room. rewrite map_size_insert_Some by (by rewrite E). done. Qed.

Lemma st_put_sh K ew m n s l h0 h : st K (hc h) ew m n s -> m !! l = Some h0 ->
  exists s', put_sh l h s = Ok s' /\ st K (hc h0) ew (<[l := h]> m) n s'.
Proof.
  intros S E. unfold put_sh, sh. pose proof S as (_ & Em & _). rewrite Em, E. cbn. eexists. split; [done|].
  eapply st_shs; [done|intros; by eapply insert_same_dom|eapply insert_room; [done|by eapply st_room]|].
  intros g. rewrite fmap_insert. apply members_insert. by apply hc_lookup.
Qed.
(** the group stays *)
Lemma st_fix_sh K e ew m n s l h0 h : st K e ew m n s -> m !! l = Some h0 -> hc h = hc h0 ->
  exists s', put_sh l h s = Ok s' /\ st K e ew (<[l := h]> m) n s'.
Proof.
  intros S E Eh. unfold put_sh, sh. pose proof S as (_ & Em & _). rewrite Em, E. cbn. eexists. split; [done|].
  eapply st_shs; [done|intros; by eapply insert_same_dom|eapply insert_room; [done|by eapply st_room]|].
  intros g. rewrite fmap_insert, Eh, insert_id; [done|]. by apply hc_lookup.
Qed.
Lemma st_new_sh K ew m n s x h : st K (hc h) ew m n s -> m !! Var x = None -> room m n 1 ->
  exists s', new_sh (Var x) h s = Ok s' /\ st K None ew (<[Var x := h]> m) n s'.
Proof.
  intros S E R. unfold new_sh. pose proof S as (_ & Em & _). rewrite Em, E. eexists. split; [done|].
  eapply st_shs; [done|intros; by rewrite lookup_insert_ne| |].
  - unfold room in *. rewrite map_size_insert_None by done. lia.
  - intros g. rewrite fmap_insert, members_insert_new by (by rewrite lookup_fmap, E). rewrite bump_none. lia.
Qed.
Lemma st_new_wk K e m n s x h : st K e (hc h) m n s -> n !! Var x = None -> room m n 1 ->
  exists s', new_wk (Var x) h s = Ok s' /\ st K e None m (<[Var x := h]> n) s'.
Proof.
  intros S E R. unfold new_wk. pose proof S as (_ & _ & Em). rewrite Em, E. eexists. split; [done|].
  eapply st_wks; [done|intros; by rewrite lookup_insert_ne| |].
  - unfold room in *. rewrite map_size_insert_None by done. lia.
  - intros g. rewrite fmap_insert, members_insert_new by (by rewrite lookup_fmap, E). rewrite bump_none. lia.
Qed.
Lemma st_end_sh K ew m n s x h : st K None ew m n s -> m !! Var x = Some h ->
  st K (hc h) ew (delete (Var x) m) n (end_sh (Var x) s).
Proof.
  intros S E. unfold end_sh. pose proof S as (_ & -> & _). eapply st_shs; [done|intros; by rewrite lookup_delete_ne| |].
  - pose proof (st_room _ _ _ _ _ _ S) as R. unfold room in *. pose proof (size_delete_le m (Var x)). lia.
  - intros g. rewrite fmap_delete, bump_none. pose proof (members_delete _ _ _ g (hc_lookup _ _ _ E)). lia.
Qed.
Lemma st_end_wk K e m n s x h : st K e None m n s -> n !! Var x = Some h ->
  st K e (hc h) m (delete (Var x) n) (end_wk (Var x) s).
Proof.
  intros S E. unfold end_wk. pose proof S as (_ & _ & ->). eapply st_wks; [done|intros; by rewrite lookup_delete_ne| |].
  - pose proof (st_room _ _ _ _ _ _ S) as R. unfold room in *. pose proof (size_delete_le n (Var x)). lia.
  - intros g. rewrite fmap_delete, bump_none. pose proof (members_delete _ _ _ g (hc_lookup _ _ _ E)). lia.
Qed.
Lemma swap_dom (m : gmap loc handle) x y h k l : m !! x = Some h -> m !! y = Some k ->
  is_Some (<[y := h]> (<[x := k]> m) !! l) <-> is_Some (m !! l).
Proof. intros E1 E2. rewrite !lookup_insert_is_Some'. split; [intros [<-|[<-|?]]|auto]; [by rewrite E2|by rewrite E1|done]. Qed.
Lemma swap_members (m : gmap loc handle) x y h k g : m !! x = Some h -> m !! y = Some k ->
  members (hc <$> <[y := h]> (<[x := k]> m)) g = members (hc <$> m) g.
Proof.
  intros E1 E2. rewrite !fmap_insert. apply hc_lookup in E1, E2. destruct (decide (x = y)) as [->|N].
  - rewrite insert_insert, insert_id by done. done.
  - pose proof (members_insert (<[x := hc k]> (hc <$> m)) y (hc k) (hc h) g) as H1.
    rewrite lookup_insert_ne in H1 by done. specialize (H1 E2).
    pose proof (members_insert (hc <$> m) x (hc h) (hc k) g E1). lia.
Qed.
Lemma st_swap K e ew m n s x y h k : st K e ew m n s -> m !! x = Some h -> m !! y = Some k ->
  exists s', s_swap x y s = Ok s' /\ st K e ew (<[y := h]> (<[x := k]> m)) n s'.
Proof.
  intros S E1 E2. unfold s_swap, sh, put_sh, sh. pose proof S as (_ & Em & _). rewrite Em, E1, E2. cbn. rewrite ?Em, ?E1. cbn. rewrite ?Em.
  assert (X : is_Some (<[x := k]> m !! y)) by (eapply insert_same_dom; [done|by rewrite E2]).
  destruct X as [? X]. rewrite ?Em, X. cbn. rewrite ?Em. eexists. split; [done|].
  change (with_shs (<[y:=h]> (<[x:=k]> m)) (with_shs (<[x:=k]> m) s)) with (with_shs (<[y:=h]> (<[x:=k]> m)) s).
  eapply st_shs; [done|intros; by apply swap_dom| |intros; by rewrite swap_members].
  pose proof (st_room _ _ _ _ _ _ S) as R. unfold room in *. rewrite (size_same m (<[y:=h]> (<[x:=k]> m))); [done|]. intros; by apply swap_dom.
Qed.
Lemma st_wswap K e ew m n s x y h k : st K e ew m n s -> n !! x = Some h -> n !! y = Some k ->
  exists s', w_swap x y s = Ok s' /\ st K e ew m (<[y := h]> (<[x := k]> n)) s'.
Proof.
  intros S E1 E2. unfold w_swap, wk, put_wk, wk. pose proof S as (_ & _ & Em). rewrite Em, E1, E2. cbn. rewrite ?Em, ?E1. cbn. rewrite ?Em.
  assert (X : is_Some (<[x := k]> n !! y)) by (eapply insert_same_dom; [done|by rewrite E2]).
  destruct X as [? X]. rewrite ?Em, X. cbn. rewrite ?Em. eexists. split; [done|].
  change (with_wks (<[y:=h]> (<[x:=k]> n)) (with_wks (<[x:=k]> n) s)) with (with_wks (<[y:=h]> (<[x:=k]> n)) s).
  eapply st_wks; [done|intros; by apply swap_dom| |intros; by rewrite swap_members].
  pose proof (st_room _ _ _ _ _ _ S) as R. unfold room in *. rewrite (size_same n (<[y:=h]> (<[x:=k]> n))); [done|]. intros; by apply swap_dom.
Qed.

(** ** Counting down *)
Lemma right_start s : right_so (hc <$> shs s) ∅ s.
Proof. split; [intros o X; by apply elem_of_empty in X|]. auto. Qed.
Lemma st_release K e m n s : st K e None m n s ->
  exists s', shared_count_release e s = Ok s' /\ inv K None None ∅ s' /\ gone ∅ s s' /\ rightly (hc <$> m) s s'.
Proof. intros (I & <- & <-). apply shared_count_release_ok; [done|apply right_start]. Qed.
Lemma st_wrelease K e ew m n s : st K e ew m n s ->
  exists s', weak_count_release ew s = Ok s' /\ st K e None m n s'.
Proof.
  intros (I & <- & <-). destruct (weak_count_release_ok _ _ _ _ _ I) as (s' & E & I' & S & _). exists s'. split; [done|].
  split; [done|]. apply S.
Qed.
(** not the last one *)
Lemma st_release_more K g m n s : st K (Some g) None m n s -> 0 < members (hc <$> m) g ->
  exists s', shared_count_release (Some g) s = Ok s' /\ st K None None m n s' /\ objs s' = objs s.
Proof.
  intros (I & <- & <-) P. pose proof I as (C & W & F). pose proof (inv_bounds _ _ _ _ _ g I) as [Ba Bb].
  assert (Ag : A (Some g) s g = S (members (hc <$> shs s) g)) by (unfold A; rewrite bump_self; lia).
  destruct (release_more _ _ _ _ _ g C) as (s' & E & C' & Sm & O); [lia|lia|].
  exists s'. unfold shared_count_release. cbn [release_fuel]. rewrite E. cbn [obind]. rewrite Ag.
  replace (Z.of_nat (S (members (hc <$> shs s) g) - 1) =? 0)%Z with false by (symmetry; apply Z.eqb_neq; lia).
  split; [done|]. split; [|done]. split; [|apply Sm].
  eapply (inv_same _ _ _ _ _ ∅ ∅ _ _ I); [|done..]. eapply core_ext; [exact C'| |done].
  intros h'. unfold upd, A. case_decide as X; [subst; rewrite bump_self, bump_none; lia|by rewrite bump_ne, bump_none].
Qed.

(** ** Locking *)
Lemma st_lock K m n s g : st K None None m n s -> 0 < members (hc <$> m) g ->
  exists s', lock g s = Ok (true, s') /\ st K (Some g) None m n s'.
Proof.
  intros (I & <- & <-) P. pose proof I as (C & W & F). pose proof (inv_bounds _ _ _ _ _ g I) as [Ba _].
  destruct (lock_alive _ _ _ _ _ g C) as (s' & E1 & C' & S & O); [unfold A; lia|lia|].
  exists s'. split; [done|]. split; [|apply S].
  eapply (inv_same _ _ _ _ _ ∅ ∅ _ _ I); [|done..]. eapply core_ext; [exact C'| |done].
  intros h'. unfold upd, A. case_decide as X; [subst; rewrite bump_self, bump_none; lia|by rewrite bump_ne, bump_none].
Qed.
Lemma st_lock_dead K m n s g l : st K None None m n s -> members (hc <$> m) g = 0 -> (hc <$> n) !! l = Some (Some g) ->
  lock g s = Ok (false, s).
Proof.
  intros (I & <- & <-) P E. eapply lock_dead; [apply I| |].
  - unfold A. by rewrite P.
  - unfold B. pose proof (members_pos _ _ _ E). lia.
Qed.

(** ** A new group *)
Definition fresh_handles (o n : nat) (l : list bool) (b : bool) : gmap loc handle := (fun _ => null) <$> fresh_members o n l b.
Lemma fresh_lookup o n l b x v : fresh_members o n l b !! x = Some v ->
  v = None /\ exists i, x = Field o (n + i) /\ l !! i = Some b.
Proof.
  revert n. induction l as [|c l IH]; intros n; cbn [fresh_members]; [by rewrite lookup_empty|].
  assert (X : fresh_members o (S n) l b !! x = Some v -> v = None /\ exists i, x = Field o (n + i) /\ (c :: l) !! i = Some b).
  { intros H. destruct (IH _ H) as (E & i & E1 & E2). split; [done|]. exists (S i). split; [|done]. rewrite E1. do 2 f_equal. lia. }
  destruct (eqb c b) eqn:E; [|done]. apply eqb_prop in E as ->. rewrite lookup_insert_Some. intros [[<- <-]|[_ H]]; [|auto].
  split; [done|]. exists 0. split; [do 2 f_equal; lia|done].
Qed.
Lemma fresh_has o n l b i : l !! i = Some b -> fresh_members o n l b !! Field o (n + i) = Some None.
Proof.
  revert n i. induction l as [|c l IH]; intros n i; cbn [fresh_members]; [done|]. destruct i as [|i]; cbn.
  - intros [= ->]. rewrite eqb_reflx, Nat.add_0_r. apply lookup_insert.
  - intros H. specialize (IH (S n) i H). replace (S n + i) with (n + S i) in IH by lia.
    destruct (eqb c b); [|done]. rewrite lookup_insert_ne; [done|]. intros [=]. lia.
Qed.
Lemma fresh_none o n l b x : (forall i, n <= i -> x <> Field o i) -> fresh_members o n l b !! x = None.
Proof.
  intros H. destruct (fresh_members o n l b !! x) eqn:E; [|done]. apply fresh_lookup in E as (_ & i & -> & _). exfalso.
  apply (H (n + i)); [lia|done].
Qed.
Lemma fresh_handles_hc o n l b : hc <$> fresh_handles o n l b = fresh_members o n l b.
Proof.
  unfold fresh_handles. rewrite <- map_fmap_compose. apply map_eq. intros x. rewrite lookup_fmap.
  destruct (fresh_members o n l b !! x) eqn:E; [|done]. apply fresh_lookup in E as [-> _]. done.
Qed.
Lemma new_fields_hs o : forall l n s b, hs b (new_fields o n l s) = fresh_handles o n l b ∪ hs b s.
Proof.
  unfold fresh_handles. induction l as [|c l IH]; intros n s b; cbn [new_fields fresh_members].
  { rewrite fmap_empty. by rewrite (left_id_L ∅ (∪)). }
  rewrite IH. destruct c, b; cbn [hs with_shs with_wks shs wks eqb]; [| done | done |].
  all: rewrite fmap_insert, <- insert_union_l; rewrite insert_union_r; [done|].
  all: rewrite lookup_fmap, fresh_none; [done|]. all: intros i Hi [=]; lia.
Qed.
Lemma new_fields_rest o : forall l n s, let s' := new_fields o n l s in
  blocks s' = blocks s /\ objs s' = objs s /\ nxt s' = nxt s /\ destroyed s' = destroyed s /\ freed s' = freed s.
Proof.
  induction l as [|c l IH]; intros n s; cbn [new_fields]; [done|]. destruct (IH (S n) (if c then with_shs (<[Field o n:=null]> (shs s)) s else with_wks (<[Field o n:=null]> (wks s)) s)) as (->&->&->&->&->).
  by destruct c.
Qed.
Lemma fresh_members_zero o n l b g : members (fresh_members o n l b) g = 0.
Proof.
  destruct (members (fresh_members o n l b) g) eqn:E; [done|]. destruct (members_some (fresh_members o n l b) g) as [x H]; [lia|].
  apply fresh_lookup in H as [? _]. done.
Qed.
Lemma members_union (m1 m2 : hmap) g : m1 ##ₘ m2 -> members (m1 ∪ m2) g = members m1 g + members m2 g.
Proof.
  unfold members. intros H. rewrite map_filter_union by done. rewrite map_size_disj_union; [done|].
  by apply map_disjoint_filter.
Qed.
Lemma fresh_size o n l : size (fresh_members o n l true) + size (fresh_members o n l false) = length l.
Proof.
  revert n. induction l as [|c l IH]; intros n; cbn [fresh_members length]; [by rewrite !map_size_empty|].
  specialize (IH (S n)). assert (N : forall b, fresh_members o (S n) l b !! Field o n = None).
  { intros b. apply fresh_none. intros i Hi [=]. lia. }
  destruct c; cbn; rewrite map_size_insert_None by apply N; lia.
Qed.

Definition pts (K : list raw) (g : option nat) : option nat :=
  match g with
  | None => None
  | Some g => match K !! g with Some k => if has_object k then Some g else None | None => None end
  end.
Lemma st_new_group K ew m n s r : st K None ew m n s -> room m n (length (layout r)) -> exists s',
  (let (o, s) := new_obj r s in let (b, s) := new_block o s in (o, b, s)) = (pts (K ++ [r]) (Some (length K)), length K, s') /\
  st (K ++ [r]) (Some (length K)) ew (fresh_handles (length K) 0 (layout r) true ∪ m) (fresh_handles (length K) 0 (layout r) false ∪ n) s' /\
  (forall b i, hs b s !! Field (length K) i = None) /\
  objs s' !! length K = body r /\ (forall o, o <> length K -> objs s' !! o = objs s !! o).
Proof.
  intros (I & <- & <-) R. pose proof I as (C & W & F). set (N := length K) in *.
  pose proof (core_nxt _ _ _ _ _ C) as HN.
  assert (KN : K !! N = None) by (apply lookup_ge_None; lia).
  assert (KN' : (K ++ [r]) !! N = Some r) by (rewrite lookup_app_r by lia; unfold N; by rewrite Nat.sub_diag).
  assert (Ko : forall o, o <> N -> (K ++ [r]) !! o = K !! o).
  { intros o Ne. destruct (K !! o) eqn:E; [by rewrite lookup_app_l by (apply lookup_lt_Some in E; lia)|].
    apply lookup_ge_None in E. apply lookup_ge_None. rewrite app_length. cbn. lia. }
  destruct (core_out _ _ _ _ _ C N KN) as (A0 & B0 & D0 & Bl0 & Ob0 & De0 & Fr0).
  assert (Fn : forall b i, hs b s !! Field N i = None).
  { intros b i. destruct (hs b s !! Field N i) eqn:E; [|done]. destruct (W b N i) as [W1 _]. destruct W1 as (k & E1 & _); [by eexists|]. congruence. }
  set (s1 := (new_obj r s).2). set (s2 := (new_block (new_obj r s).1 s1).2).
  assert (H1 : forall b, hs b s1 = fresh_handles N 0 (layout r) b ∪ hs b s).
  { intros b. unfold s1. destruct r as [|self l]; cbn [new_obj snd].
    - cbn [layout]. unfold fresh_handles. cbn. rewrite fmap_empty. by rewrite (left_id_L ∅ (∪)).
    - rewrite new_fields_hs, HN. done. }
  assert (H1' : objs s1 !! N = body r /\ (forall o, o <> N -> objs s1 !! o = objs s !! o) /\ nxt s1 = N /\ blocks s1 = blocks s /\
    destroyed s1 = destroyed s /\ freed s1 = freed s).
  { unfold s1. destruct r as [|self l]; cbn [new_obj snd].
    - done.
    - destruct (new_fields_rest (nxt s) (layout (RObj self l)) 0 (put_obj (nxt s) {| from_this := self; lay := layout (RObj self l) |} s)) as (->&->&->&->&->).
      cbn [put_obj objs nxt blocks destroyed freed]. rewrite HN. split; [apply lookup_insert|]. split; [|done].
      intros o Ne. by rewrite lookup_insert_ne. }
  destruct H1' as (O1 & O1' & N1 & Bl1 & De1 & Fr1).
  assert (H2 : forall b, hs b s2 = fresh_handles N 0 (layout r) b ∪ hs b s) by (intros b; rewrite <- H1; by destruct b).
  assert (O2 : objs s2 = objs s1) by done.
  assert (Ed : forall b, fresh_handles N 0 (layout r) b ##ₘ hs b s).
  { intros b. apply map_disjoint_spec. intros x h1 h2 E1 E2. unfold fresh_handles in E1. rewrite lookup_fmap in E1.
    destruct (fresh_members N 0 (layout r) b !! x) eqn:E; [|done]. apply fresh_lookup in E as (_ & i & -> & _).
    rewrite Fn in E2. done. }
  exists s2. split; [|split; [|split; [done|split; [done|rewrite O2; done]]]].
  - transitivity ((new_obj r s).1, nxt s1, s2); [unfold s2, s1; by destruct (new_obj r s)|]. rewrite N1.
    assert (Eo : (new_obj r s).1 = pts (K ++ [r]) (Some N)); [|by rewrite Eo].
    unfold pts. rewrite KN'. destruct r; [done|]. cbn. by rewrite HN.
  - split; [|split; [apply (H2 true)|apply (H2 false)]]. split; [|split].
    + assert (EA : forall g, A (Some N) s2 g = upd (A None s) N 1 g).
      { intros g. unfold A, upd. pose proof (H2 true) as X. cbn [hs] in X. rewrite X, map_fmap_union, fresh_handles_hc, members_union.
        - rewrite fresh_members_zero. case_decide as Y; [subst; rewrite bump_self; unfold A in A0; rewrite bump_none in A0; lia|].
          rewrite bump_ne, bump_none by done. done.
        - rewrite <- fresh_handles_hc. apply map_disjoint_fmap. apply (Ed true). }
      assert (EB : forall g, B ew s2 g = B ew s g).
      { intros g. unfold B. pose proof (H2 false) as X. cbn [hs] in X. rewrite X, map_fmap_union, fresh_handles_hc, members_union.
        - by rewrite fresh_members_zero.
        - rewrite <- fresh_handles_hc. apply map_disjoint_fmap. apply (Ed false). }
      eapply (core_ext _ (upd (A None s) N 1) (B ew s)); [|done|done].
      assert (X : forall g, g <> N -> blocks s2 !! g = blocks s !! g /\ objs s2 !! g = objs s !! g /\
        times (destroyed s2) g = times (destroyed s) g /\ times (freed s2) g = times (freed s) g).
      { intros g Ne. rewrite O2, O1' by done. cbn. rewrite N1, Bl1, De1, Fr1. rewrite lookup_insert_ne by done. done. }
      split.
      * cbn. rewrite N1, app_length. cbn. unfold N. lia.
      * intros g k Hk. destruct (decide (g = N)) as [->|Ne].
        -- rewrite KN' in Hk. injection Hk as <-. rewrite upd_eq, B0. split.
           ++ cbn. rewrite N1, lookup_insert. do 2 f_equal. unfold target. unfold s1. destruct r; [done|]. cbn. by rewrite HN.
           ++ rewrite O2. done.
           ++ cbn. rewrite De1, De0. done.
           ++ cbn. rewrite Fr1, Fr0. done.
        -- rewrite Ko in Hk by done. rewrite upd_ne by done. destruct (X g Ne) as (?&?&?&?). eapply ent_same; [by apply C|done..].
      * intros g Hg. by apply elem_of_empty in Hg.
      * intros g Hg. assert (g <> N) by congruence. rewrite Ko in Hg by done. rewrite upd_ne by done.
        destruct (X g) as (->&->&->&->); [done|]. by apply C.
    + intros b o i. rewrite H2, O2. destruct (decide (o = N)) as [->|Ne].
      * rewrite O1. split.
        -- intros [h Hh]. apply lookup_union_Some_raw in Hh as [Hh|[_ Hh]]; [|rewrite Fn in Hh; done].
           unfold fresh_handles in Hh. rewrite lookup_fmap in Hh. destruct (fresh_members N 0 (layout r) b !! Field N i) eqn:E; [|done].
           apply fresh_lookup in E as (_ & j & [= ->] & E). exists r. split; [done|]. split; [done|]. left.
           destruct r; [done|]. cbn. eauto.
        -- intros k Hk _ Hl. rewrite KN' in Hk. injection Hk as <-. rewrite lookup_union_is_Some. left.
           unfold fresh_handles. rewrite lookup_fmap. apply (fresh_has N 0) in Hl. cbn in Hl. rewrite Hl. cbn. eauto.
      * rewrite O1', Ko by done. rewrite lookup_union_r.
        -- apply W.
        -- unfold fresh_handles. rewrite lookup_fmap, fresh_none; [done|]. intros j _ [=]. done.
    + unfold fits. pose proof (H2 true) as X. pose proof (H2 false) as Y. cbn [hs] in X, Y. rewrite X, Y.
      rewrite !map_size_disj_union by (apply (Ed true) || apply (Ed false)).
      pose proof (fresh_size N 0 (layout r)) as Z. unfold fresh_handles. rewrite !map_size_fmap.
      unfold room in R. lia.
Qed.
