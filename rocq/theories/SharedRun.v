(** Every command keeps the accounts. *)
From stdpp Require Import gmap.
From Coq Require Import ZArith Lia.
From Verif Require Import Base SharedModel SharedSpec SharedProofs.
Local Open Scope nat_scope.

(** The handle of a member of group [g]. *)
Definition conc (K : list kind) (g : option nat) : handle :=
  match g with
  | None => null
  | Some g => {| hp := match K !! g with Some k => target k g | None => None end; hc := Some g |}
  end.
Record repr (K : list kind) (S W : hmap) (s : state) : Prop := {
  repr_core : core K (members S) (members W) s;
  repr_shs : shs s = conc K <$> S;
  repr_wks : wks s = conc K <$> W }.
Definition few (S W : hmap) : Prop := (Z.of_nat (size S) + Z.of_nat (size W) + 3 < 2 ^ 64)%Z.

Lemma few_g S W g : few S W -> (Z.of_nat (members S g) + Z.of_nat (members W g) + 3 < 2 ^ 64)%Z.
Proof. unfold few. pose proof (members_size S g). pose proof (members_size W g). lia. Qed.
Lemma core_shs K a b m s : core K a b s -> core K a b (with_shs m s).
Proof. intros [N E O]. split; [done| |done]. intros g k H. eapply ent_same; eauto. Qed.
Lemma core_wks K a b m s : core K a b s -> core K a b (with_wks m s).
Proof. intros [N E O]. split; [done| |done]. intros g k H. eapply ent_same; eauto. Qed.
Lemma repr_sh K S W s x g : repr K S W s -> S !! x = Some g -> sh x s = Ok (conc K g).
Proof. intros R E. unfold sh. rewrite (repr_shs _ _ _ _ R), lookup_fmap, E. done. Qed.
Lemma repr_wk K S W s x g : repr K S W s -> W !! x = Some g -> wk x s = Ok (conc K g).
Proof. intros R E. unfold wk. rewrite (repr_wks _ _ _ _ R), lookup_fmap, E. done. Qed.
Lemma new_sh_ok K S s x h : shs s = conc K <$> S -> S !! x = None -> new_sh x h s = Ok (with_shs (<[x := h]> (shs s)) s).
Proof. intros R E. unfold new_sh. rewrite R, lookup_fmap, E. done. Qed.
Lemma new_wk_ok K S s x h : wks s = conc K <$> S -> S !! x = None -> new_wk x h s = Ok (with_wks (<[x := h]> (wks s)) s).
Proof. intros R E. unfold new_wk. rewrite R, lookup_fmap, E. done. Qed.
Lemma put_sh_ok K S s x g h : shs s = conc K <$> S -> S !! x = Some g -> put_sh x h s = Ok (with_shs (<[x := h]> (shs s)) s).
Proof. intros R E. unfold put_sh, sh. rewrite R, lookup_fmap, E. done. Qed.
Lemma put_wk_ok K S s x g h : wks s = conc K <$> S -> S !! x = Some g -> put_wk x h s = Ok (with_wks (<[x := h]> (wks s)) s).
Proof. intros R E. unfold put_wk, wk. rewrite R, lookup_fmap, E. done. Qed.

Ltac count := intros; unfold upd, bump in *; repeat case_decide; simplify_eq; try lia.

(** ** shared handles *)
Lemma p_new_s K S W s x : repr K S W s -> S !! x = None ->
  exists s', new_sh x null s = Ok s' /\ repr K (<[x := None]> S) W s'.
Proof.
  intros [C Hs Hw] Hx. rewrite (new_sh_ok K S) by done. eexists. split; [done|]. split; cbn.
  - apply core_shs. eapply core_ext; [exact C| |done]. intros g. pose proof (members_insert_new S x None g Hx). count.
  - by rewrite Hs, fmap_insert.
  - done.
Qed.
Lemma p_copy_s K S W s x y g : repr K S W s -> few S W -> S !! y = Some g -> S !! x = None ->
  exists s', s_copy x y s = Ok s' /\ repr K (<[x := g]> S) W s'.
Proof.
  intros R F Hy Hx. unfold s_copy. rewrite (repr_sh _ _ _ _ _ _ R Hy). cbn [obind]. destruct g as [g|]; cbn [conc hc shared_count_copy null].
  - destruct R as [C Hs Hw].
    destruct (copy_shared_ok K _ _ s C g (few_g _ _ g F) (members_pos _ _ _ Hy)) as (s1&->&[Es Ew]&C1). cbn [obind].
    rewrite (new_sh_ok K S) by congruence. eexists. split; [done|]. split; cbn.
    + apply core_shs. eapply core_ext; [exact C1| |done]. intros h.
      pose proof (members_insert_new S x (Some g) h Hx). count.
    + rewrite Es, Hs, fmap_insert. done.
    + congruence.
  - cbn [obind]. by apply p_new_s.
Qed.
Lemma p_swap_s K S W s x y g h : repr K S W s -> S !! x = Some g -> S !! y = Some h ->
  exists s', s_swap x y s = Ok s' /\ repr K (<[y := g]> (<[x := h]> S)) W s'.
Proof.
  intros R Hx Hy. unfold s_swap. rewrite (repr_sh _ _ _ _ _ _ R Hx), (repr_sh _ _ _ _ _ _ R Hy). cbn [obind].
  destruct R as [C Hs Hw]. rewrite (put_sh_ok K S s x g) by done. cbn [obind].
  assert (is_Some ((<[x := h]> S) !! y)) as [h' Hy'].
  { destruct (decide (x = y)); [subst; rewrite lookup_insert|rewrite lookup_insert_ne by done]; eauto. }
  rewrite (put_sh_ok K (<[x := h]> S) _ y h'); [|cbn; by rewrite Hs, fmap_insert|done].
  eexists. split; [done|]. split; cbn.
  - do 2 apply core_shs. eapply core_ext; [exact C| |done]. intros k.
    pose proof (members_insert S x g h k Hx). pose proof (members_insert (<[x := h]> S) y h' g k Hy').
    destruct (decide (x = y)) as [->|D].
    + rewrite lookup_insert in Hy'. simplify_eq. lia.
    + rewrite lookup_insert_ne in Hy' by done. simplify_eq. lia.
  - by rewrite Hs, !fmap_insert.
  - done.
Qed.
Lemma p_move_s K S W s x y g : repr K S W s -> S !! y = Some g -> S !! x = None ->
  exists s', s_move x y s = Ok s' /\ repr K (<[y := None]> (<[x := g]> S)) W s'.
Proof.
  intros R Hy Hx. assert (x <> y) as D by congruence.
  unfold s_move. rewrite (repr_sh _ _ _ _ _ _ R Hy). cbn [obind].
  destruct R as [C Hs Hw]. rewrite (put_sh_ok K S s y g) by done. cbn [obind].
  unfold new_sh. cbn [shs with_shs]. rewrite lookup_insert_ne, Hs, lookup_fmap, Hx by done. cbn [fmap option_fmap option_map obind].
  unfold put_sh, sh. cbn [shs with_shs]. rewrite lookup_insert_ne, lookup_insert by done. cbn [of_option obind].
  eexists. split; [done|]. split; cbn.
  - do 3 apply core_shs. eapply core_ext; [exact C| |done]. intros k.
    pose proof (members_insert_new S x g k Hx). pose proof (members_insert (<[x := g]> S) y g None k) as M.
    rewrite lookup_insert_ne in M by done. specialize (M Hy). unfold bump in *. rewrite (decide_False (P := None = Some k)) in M by done. lia.
  - rewrite !fmap_insert. rewrite (insert_commute _ x y) by done. by rewrite insert_insert.
  - done.
Qed.
(** The old count of a handle goes. *)
Lemma p_release_s K S W s s0 x g : core K (members S) (members W) s0 -> same s s0 -> few S W -> S !! x = Some g ->
  exists s', shared_count_release (hc (conc K g)) s0 = Ok s' /\ same s s' /\ core K (members (<[x := None]> S)) (members W) s'.
Proof.
  intros C [Es Ew] F Hx. destruct g as [g|]; cbn [conc hc null].
  - destruct (shared_release_ok K _ _ s0 C g (few_g _ _ g F) (members_pos _ _ _ Hx)) as (s1&->&[Es' Ew']&C1).
    eexists. split; [done|]. split; [split; congruence|]. eapply core_ext; [exact C1| |done]. intros h.
    pose proof (members_insert S x (Some g) None h Hx). pose proof (members_pos _ _ _ Hx). count.
  - eexists. split; [done|]. split; [done|]. eapply core_ext; [exact C| |done]. intros h.
    pose proof (members_insert S x None None h Hx). lia.
Qed.
Lemma members_drop (S : hmap) x g h : S !! x = Some g -> members (delete x S) h = members (<[x := None]> S) h.
Proof. intros Hx. pose proof (members_delete S x g h Hx). pose proof (members_insert S x g None h Hx). count. Qed.
Lemma p_drop_s K S W s x g : repr K S W s -> few S W -> S !! x = Some g ->
  exists s', s_drop x s = Ok s' /\ repr K (delete x S) W s'.
Proof.
  intros R F Hx. unfold s_drop. rewrite (repr_sh _ _ _ _ _ _ R Hx). cbn [obind]. destruct R as [C Hs Hw].
  destruct (p_release_s K S W s s x g C (conj eq_refl eq_refl) F Hx) as (s1&->&[Es Ew]&C1). cbn [obind].
  eexists. split; [done|]. split; cbn.
  - apply core_shs. eapply core_ext; [exact C1| |done]. intros h. by rewrite (members_drop S x g).
  - by rewrite Es, Hs, fmap_delete.
  - congruence.
Qed.
Lemma p_reset_s K S W s x g : repr K S W s -> few S W -> S !! x = Some g ->
  exists s', s_reset x s = Ok s' /\ repr K (<[x := None]> S) W s'.
Proof.
  intros R F Hx. unfold s_reset. rewrite (repr_sh _ _ _ _ _ _ R Hx). cbn [obind]. destruct R as [C Hs Hw].
  rewrite (put_sh_ok K S s x g) by done. cbn [obind].
  unfold put_sh, sh. cbn [shs with_shs]. rewrite lookup_insert. cbn [of_option obind].
  match goal with |- context [shared_count_release _ ?t] =>
    destruct (p_release_s K S W t t x g ltac:(by do 2 apply core_shs) (conj eq_refl eq_refl) F Hx) as (s1&->&[Es Ew]&C1) end.
  eexists. split; [done|]. split.
  - done.
  - rewrite Es. cbn. by rewrite insert_insert, Hs, fmap_insert.
  - rewrite Ew. done.
Qed.

(** ** weak handles *)
Lemma p_new_w K S W s x : repr K S W s -> W !! x = None ->
  exists s', new_wk x null s = Ok s' /\ repr K S (<[x := None]> W) s'.
Proof.
  intros [C Hs Hw] Hx. rewrite (new_wk_ok K W) by done. eexists. split; [done|]. split; cbn.
  - apply core_wks. eapply core_ext; [exact C|done|]. intros g. pose proof (members_insert_new W x None g Hx). count.
  - done.
  - by rewrite Hw, fmap_insert.
Qed.
(** A new weak handle of a group that still has a handle. *)
Lemma p_add_w K S W s x g : repr K S W s -> few S W ->
  match g with Some g => 0 < members S g + members W g | None => True end -> W !! x = None ->
  exists s', (s <~ weak_count_copy (hc (conc K g)) s ; new_wk x (conc K g) s)%outcome = Ok s' /\ repr K S (<[x := g]> W) s'.
Proof.
  intros R F Hg Hx. destruct g as [g|]; cbn [conc hc weak_count_copy null].
  - destruct R as [C Hs Hw].
    destruct (copy_weak_ok K _ _ s C g (few_g _ _ g F) Hg) as (s1&->&[Es Ew]&C1). cbn [obind].
    rewrite (new_wk_ok K W) by congruence. eexists. split; [done|]. split; cbn.
    + apply core_wks. eapply core_ext; [exact C1|done|]. intros h.
      pose proof (members_insert_new W x (Some g) h Hx). count.
    + congruence.
    + rewrite Ew, Hw, fmap_insert. done.
  - cbn [obind]. by apply p_new_w.
Qed.
Lemma p_copy_w K S W s x y g : repr K S W s -> few S W -> W !! y = Some g -> W !! x = None ->
  exists s', w_copy x y s = Ok s' /\ repr K S (<[x := g]> W) s'.
Proof.
  intros R F Hy Hx. unfold w_copy. rewrite (repr_wk _ _ _ _ _ _ R Hy). cbn [obind]. apply p_add_w; auto.
  destruct g as [g|]; [|done]. pose proof (members_pos _ _ _ Hy). lia.
Qed.
Lemma p_from_w K S W s x y g : repr K S W s -> few S W -> S !! y = Some g -> W !! x = None ->
  exists s', w_from x y s = Ok s' /\ repr K S (<[x := g]> W) s'.
Proof.
  intros R F Hy Hx. unfold w_from. rewrite (repr_sh _ _ _ _ _ _ R Hy). cbn [obind]. apply p_add_w; auto.
  destruct g as [g|]; [|done]. pose proof (members_pos _ _ _ Hy). lia.
Qed.
Lemma p_swap_w K S W s x y g h : repr K S W s -> W !! x = Some g -> W !! y = Some h ->
  exists s', w_swap x y s = Ok s' /\ repr K S (<[y := g]> (<[x := h]> W)) s'.
Proof.
  intros R Hx Hy. unfold w_swap. rewrite (repr_wk _ _ _ _ _ _ R Hx), (repr_wk _ _ _ _ _ _ R Hy). cbn [obind].
  destruct R as [C Hs Hw]. rewrite (put_wk_ok K W s x g) by done. cbn [obind].
  assert (is_Some ((<[x := h]> W) !! y)) as [h' Hy'].
  { destruct (decide (x = y)); [subst; rewrite lookup_insert|rewrite lookup_insert_ne by done]; eauto. }
  rewrite (put_wk_ok K (<[x := h]> W) _ y h'); [|cbn; by rewrite Hw, fmap_insert|done].
  eexists. split; [done|]. split; cbn.
  - do 2 apply core_wks. eapply core_ext; [exact C|done|]. intros k.
    pose proof (members_insert W x g h k Hx). pose proof (members_insert (<[x := h]> W) y h' g k Hy').
    destruct (decide (x = y)) as [->|D].
    + rewrite lookup_insert in Hy'. simplify_eq. lia.
    + rewrite lookup_insert_ne in Hy' by done. simplify_eq. lia.
  - done.
  - by rewrite Hw, !fmap_insert.
Qed.
Lemma p_move_w K S W s x y g : repr K S W s -> W !! y = Some g -> W !! x = None ->
  exists s', w_move x y s = Ok s' /\ repr K S (<[y := None]> (<[x := g]> W)) s'.
Proof.
  intros R Hy Hx. assert (x <> y) as D by congruence.
  unfold w_move. rewrite (repr_wk _ _ _ _ _ _ R Hy). cbn [obind].
  destruct R as [C Hs Hw]. rewrite (put_wk_ok K W s y g) by done. cbn [obind].
  unfold new_wk. cbn [wks with_wks]. rewrite lookup_insert_ne, Hw, lookup_fmap, Hx by done. cbn [fmap option_fmap option_map obind].
  unfold put_wk, wk. cbn [wks with_wks]. rewrite lookup_insert_ne, lookup_insert by done. cbn [of_option obind].
  eexists. split; [done|]. split; cbn.
  - do 3 apply core_wks. eapply core_ext; [exact C|done|]. intros k.
    pose proof (members_insert_new W x g k Hx). pose proof (members_insert (<[x := g]> W) y g None k) as M.
    rewrite lookup_insert_ne in M by done. specialize (M Hy). unfold bump in *. rewrite (decide_False (P := None = Some k)) in M by done. lia.
  - done.
  - rewrite !fmap_insert. rewrite (insert_commute _ x y) by done. by rewrite insert_insert.
Qed.
Lemma p_drop_w K S W s x g : repr K S W s -> few S W -> W !! x = Some g ->
  exists s', w_drop x s = Ok s' /\ repr K S (delete x W) s'.
Proof.
  intros R F Hx. unfold w_drop. rewrite (repr_wk _ _ _ _ _ _ R Hx). cbn [obind]. destruct R as [C Hs Hw].
  destruct g as [g|]; cbn [conc hc null].
  - destruct (weak_release_ok K _ _ s C g (few_g _ _ g F) (members_pos _ _ _ Hx)) as (s1&->&[Es Ew]&C1).
    cbn [obind]. eexists. split; [done|]. split; cbn.
    + apply core_wks. eapply core_ext; [exact C1|done|]. intros h.
      pose proof (members_delete W x (Some g) h Hx). count.
    + congruence.
    + by rewrite Ew, Hw, fmap_delete.
  - cbn [weak_count_release obind]. eexists. split; [done|]. split; cbn.
    + apply core_wks. eapply core_ext; [exact C|done|]. intros h.
      pose proof (members_delete W x None h Hx). count.
    + done.
    + by rewrite Hw, fmap_delete.
Qed.

(** ** Locking and new groups *)
Lemma core_lt K a b s g : core K a b s -> 0 < a g + b g -> g < length K.
Proof. intros C H. destruct (core_kind _ _ _ _ g C H) as [k Hk]. by eapply lookup_lt_Some. Qed.
Lemma conc_app K S W s k (m : hmap) :
  core K (members S) (members W) s -> (forall x g, m !! x = Some (Some g) -> 0 < members S g + members W g) ->
  conc (K ++ [k]) <$> m = conc K <$> m.
Proof.
  intros C Hm. apply map_fmap_ext. intros x [g|] E; [|done]. cbn. f_equal.
  rewrite lookup_app_l; [done|]. eapply core_lt; [exact C|by eapply Hm].
Qed.
Lemma in_s (S W : hmap) x g : S !! x = Some (Some g) -> 0 < members S g + members W g.
Proof. intros H%members_pos. lia. Qed.
Lemma in_w (S W : hmap) x g : W !! x = Some (Some g) -> 0 < members S g + members W g.
Proof. intros H%members_pos. lia. Qed.
Lemma no_members K S W s : core K (members S) (members W) s -> members S (length K) = 0.
Proof. intros C. destruct (core_out _ _ _ _ C (length K)) as (?&_); [by apply lookup_ge_None_2|done]. Qed.

(** A construction up to the handle. *)
Lemma p_start K S W s x r : repr K S W s -> S !! x = None ->
  exists s', (let (o, s) := new_obj r s in let (b, s) := new_block o s in
      new_sh x {| hp := o; hc := Some b |} s) = Ok s' /\
    repr (K ++ [reset_kind r]) (<[x := Some (length K)]> S) W s'.
Proof.
  intros [C Hs Hw] Hx. destruct (start_ok K _ _ s r C) as (s1&E1&E2&[Es Ew]&C1).
  rewrite E2 in *. rewrite E1. rewrite (new_sh_ok K S) by congruence. eexists. split; [done|]. split; cbn.
  - apply core_shs. eapply core_ext; [exact C1| |done]. intros h.
    pose proof (members_insert_new S x (Some (length K)) h Hx). pose proof (no_members _ _ _ _ C). count.
  - rewrite fmap_insert, Es, Hs. erewrite (conc_app K) by (eauto using in_s). f_equal. cbn.
    by rewrite lookup_app_r, Nat.sub_diag by lia.
  - rewrite Ew, Hw. symmetry. eapply conc_app; eauto using in_w.
Qed.
Lemma p_make K S W s x r : repr K S W s -> few (<[x := Some (length K)]> S) W -> S !! x = None -> W !! 0 = None ->
  exists s', s_make x r s = Ok s' /\ repr (K ++ [made_kind r]) (<[x := Some (length K)]> S) W s'.
Proof.
  intros R F Hx H0. destruct (p_start K S W s x r R Hx) as (s1&E1&R1).
  unfold s_make. destruct (new_obj r s) as [o s0] eqn:E0. destruct (new_block o s0) as [b s2] eqn:E2.
  rewrite E1. cbn [obind]. clear E0 E1 E2.
  unfold construct_shared_from_this.
  rewrite (repr_sh _ _ _ _ x (Some (length K)) R1) by apply lookup_insert.
  set (n := length K) in *. set (S' := <[x := Some n]> S) in *.
  assert ((K ++ [reset_kind r]) !! n = Some (reset_kind r)) as HK.
  { unfold n. by rewrite lookup_app_r, Nat.sub_diag by lia. }
  assert (S' !! x = Some (Some n)) as Hx' by apply lookup_insert.
  assert (0 < members S' n) as Mn by (eapply members_pos; eauto).
  cbn [obind conc hp]. rewrite HK.
  pose proof (core_ent _ _ _ _ (repr_core _ _ _ _ R1) n _ HK) as [_ EO _ _].
  destruct (Nat.eqb_spec (members S' n) 0) as [?|_]; [lia|].
  destruct r; cbn [reset_kind made_kind target has_object body] in *.
  - eauto.
  - rewrite EO. cbn [of_option obind weak_this]. eauto.
  - rewrite EO. cbn [of_option obind weak_this].
    destruct (p_from_w _ _ _ _ 0 x (Some n) R1 F Hx' H0) as (s3&->&R3). cbn [obind].
    pose proof (core_ent _ _ _ _ (repr_core _ _ _ _ R3) n _ HK) as [_ EO3 _ _].
    destruct (Nat.eqb_spec (members S' n) 0) as [?|_]; [lia|]. cbn [body] in EO3.
    rewrite EO3. cbn [of_option obind weak_this].
    rewrite (repr_wk _ _ _ _ 0 (Some n) R3) by apply lookup_insert. cbn [obind].
    destruct R3 as [C3 Hs3 Hw3].
    assert (members W n = 0) as Wn.
    { destruct R as [C _ _]. destruct (core_out _ _ _ _ C n) as (_&?&_); [by apply lookup_ge_None_2|done]. }
    unfold put_wk, wk. cbn [wks put_obj]. rewrite Hw3, lookup_fmap, lookup_insert. cbn [fmap option_fmap option_map of_option obind].
    unfold w_drop, wk. cbn [wks with_wks]. rewrite lookup_insert. cbn [of_option obind hc null weak_count_release].
    eexists. split; [done|].
    assert (<[n := KSelf true]> (K ++ [KSelf false]) = K ++ [KSelf true]) as KE.
    { unfold n. rewrite insert_app_r_alt, Nat.sub_diag by lia. done. }
    assert (forall g, conc (K ++ [KSelf true]) g = conc (K ++ [KSelf false]) g) as CE.
    { intros [g|]; [|done]. cbn. f_equal. destruct (decide (g = n)) as [->|D].
      - rewrite HK. unfold n. by rewrite lookup_app_r, Nat.sub_diag by lia.
      - destruct (decide (g < length K)).
        + by rewrite !lookup_app_l by done.
        + rewrite !(lookup_ge_None_2 (K ++ _)); [done|rewrite app_length; cbn; lia..]. }
    split; cbn.
    + do 2 apply core_wks. eapply core_ext; [|reflexivity|].
      * rewrite <- KE. apply (learn_ok _ _ _ _ _ (conc (K ++ [KSelf false]) (Some n)) C3 HK).
        -- done.
        -- rewrite members_insert_new by done. unfold bump. rewrite decide_True by done. lia.
        -- cbn. by rewrite HK.
      * intros h. pose proof (members_insert_new W 0 (Some n) h H0). count.
    + rewrite Hs3. apply map_fmap_ext. intros. symmetry. apply CE.
    + rewrite delete_insert_delete, fmap_insert, delete_insert_delete, delete_notin by (by rewrite lookup_fmap, H0).
      apply map_fmap_ext. intros. symmetry. apply CE.
Qed.
Lemma p_lock K S W s x g : repr K S W s -> few (<[x := Some (length K)]> S) W -> S !! x = None -> W !! 0 = None ->
  match g with Some g => 0 < members S g + members W g | None => True end ->
  exists s', lock_into x (conc K g) s = Ok s' /\
    if match g with Some g => negb (members S g =? 0) | None => false end
    then repr K (<[x := g]> S) W s' else repr (K ++ [KNull]) (<[x := Some (length K)]> S) W s'.
Proof.
  intros R F Hx H0 Hg. unfold lock_into. destruct g as [g|]; cbn [conc hc null].
  - assert (few S W) as F'.
    { unfold few in *. rewrite map_size_insert_None in F by done. lia. }
    destruct (Nat.eqb_spec (members S g) 0) as [Z|Z]; cbn [negb].
    + rewrite (lock_fails K _ _ s (repr_core _ _ _ _ R) g) by (done || lia). cbn [obind].
      exact (p_make K S W s x RNull R F Hx H0).
    + destruct R as [C Hs Hw].
      destruct (lock_ok K _ _ s C g (few_g _ _ g F')) as (s1&->&[Es Ew]&C1); [lia|]. cbn [obind].
      rewrite (new_sh_ok K S) by congruence. eexists. split; [done|]. split; cbn.
      * apply core_shs. eapply core_ext; [exact C1| |done]. intros h.
        pose proof (members_insert_new S x (Some g) h Hx). count.
      * rewrite Es, Hs, fmap_insert. done.
      * congruence.
  - cbn [obind]. exact (p_make K S W s x RNull R F Hx H0).
Qed.
Lemma p_reset_to K S W s x g r : repr K S W s -> few S W -> S !! x = Some g ->
  exists s', s_reset_to x r s = Ok s' /\ repr (K ++ [reset_kind r]) (<[x := Some (length K)]> S) W s'.
Proof.
  intros [C Hs Hw] F Hx. unfold s_reset_to.
  destruct (start_ok K _ _ s r C) as (s1&E1&E2&[Es Ew]&C1).
  rewrite E2 in *. rewrite E1.
  unfold sh. rewrite Es, Hs, lookup_fmap, Hx. cbn [fmap option_fmap option_map of_option obind].
  rewrite (put_sh_ok K S s1 x g) by congruence. cbn [obind].
  set (n := length K) in *.
  assert (members S n = 0) as Sn by (eapply no_members; eauto).
  assert (forall h, members (<[x := Some n]> S) h + bump g h = members S h + bump (Some n) h) as MI
    by (intros; by apply members_insert).
  (* the old group goes *)
  assert (match g with Some g => g <> n | None => True end) as Dg.
  { destruct g as [g|]; [|done]. intros ->. apply members_pos in Hx. lia. }
  match goal with |- context [shared_count_release _ ?t] => set (s2 := t) end.
  assert (core (K ++ [reset_kind r]) (upd (members S) n 1) (members W) s2) as C2 by (by apply core_shs).
  assert (exists s3, shared_count_release (hc (conc K g)) s2 = Ok s3 /\ same s2 s3 /\
    core (K ++ [reset_kind r]) (members (<[x := Some n]> S)) (members W) s3) as (s3&->&[Es3 Ew3]&C3).
  { destruct g as [g|]; cbn [conc hc null].
    - assert (upd (members S) n 1 g = members S g) as U by (unfold upd; by rewrite decide_False by done).
      destruct (shared_release_ok _ _ _ s2 C2 g) as (s3&->&Sm&C3).
      + rewrite U. by apply few_g.
      + rewrite U. by eapply members_pos.
      + eexists. split; [done|]. split; [done|]. eapply core_ext; [exact C3| |done]. intros h. specialize (MI h).
        pose proof (members_pos _ _ _ Hx). count.
    - eexists. split; [done|]. split; [done|]. eapply core_ext; [exact C2| |done]. intros h. specialize (MI h). count. }
  cbn [obind]. unfold put_sh, sh. rewrite Es3. cbn [shs s2 with_shs]. rewrite lookup_insert. cbn [of_option obind].
  eexists. split; [done|]. split; cbn.
  - by apply core_shs.
  - rewrite insert_insert, Es, Hs, fmap_insert. erewrite (conc_app K) by (eauto using in_s). f_equal. cbn.
    unfold n. by rewrite lookup_app_r, Nat.sub_diag by lia.
  - rewrite Ew3. cbn. rewrite Ew, Hw. symmetry. eapply conc_app; eauto using in_w.
Qed.
