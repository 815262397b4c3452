(** The commands, one by one. *)
From stdpp Require Import gmap.
From Coq Require Import ZArith Lia.
From Verif Require Import Base GraphModel GraphSpec GraphProofs GraphRelease GraphOps GraphRun.
Local Open Scope nat_scope.
Set Default Goal Selector "1".

Lemma rel_st w s : rel w s -> st (kinds w) None None (shs s) (wks s) s.
Proof. intros (I & _). done. Qed.
Lemma rel_s w s x g : rel w s -> sg w !! x = Some g -> exists h, shs s !! x = Some h /\ hc h = g /\ hp h = pts (kinds w) g.
Proof.
  intros (_ & E & _ & P & _) H. rewrite <- E, lookup_fmap in H. destruct (shs s !! x) as [h|] eqn:X; [|done].
  injection H as <-. exists h. eauto.
Qed.
Lemma rel_w w s x g : rel w s -> wg w !! x = Some g -> exists h, wks s !! x = Some h /\ hc h = g /\ hp h = pts (kinds w) g.
Proof.
  intros (_ & _ & E & _ & P & _) H. rewrite <- E, lookup_fmap in H. destruct (wks s !! x) as [h|] eqn:X; [|done].
  injection H as <-. exists h. eauto.
Qed.
Lemma rel_s_none w s x : rel w s -> sg w !! x = None -> shs s !! x = None.
Proof. intros (_ & E & _) H. rewrite <- E, lookup_fmap in H. by destruct (shs s !! x). Qed.
Lemma rel_w_none w s x : rel w s -> wg w !! x = None -> wks s !! x = None.
Proof. intros (_ & _ & E & _) H. rewrite <- E, lookup_fmap in H. by destruct (wks s !! x). Qed.
Lemma rel_zero_s w s : rel w s -> sg w !! Var 0 = None.
Proof. intros H. apply H. Qed.
Lemma rel_zero_w w s : rel w s -> wg w !! Var 0 = None.
Proof. intros H. apply H. Qed.
Lemma rel_ps w s : rel w s -> pointing (kinds w) (shs s).
Proof. intros H. apply H. Qed.
Lemma rel_pw w s : rel w s -> pointing (kinds w) (wks s).
Proof. intros H. apply H. Qed.
Lemma rel_es w s : rel w s -> hc <$> shs s = sg w.
Proof. intros H. apply H. Qed.
Lemma rel_ew w s : rel w s -> hc <$> wks s = wg w.
Proof. intros H. apply H. Qed.

Lemma new_s_inv x g w w1 : new_s x g w = Some w1 -> sg w !! Var x = None /\ w1 = set_s (<[Var x := g]> (sg w)) w.
Proof. unfold new_s. destruct (sg w !! Var x); [done|]. intros [= <-]. done. Qed.
Lemma new_w_inv x g w w1 : new_w x g w = Some w1 -> wg w !! Var x = None /\ w1 = set_w (<[Var x := g]> (wg w)) w.
Proof. unfold new_w. destruct (wg w !! Var x); [done|]. intros [= <-]. done. Qed.
Lemma upd_s_inv x g w w1 : upd_s x g w = Some w1 -> is_Some (sg w !! x) /\ w1 = set_s (<[x := g]> (sg w)) w.
Proof. unfold upd_s. destruct (sg w !! x); [|done]. intros [= <-]. eauto. Qed.
Lemma upd_w_inv x g w w1 : upd_w x g w = Some w1 -> is_Some (wg w !! x) /\ w1 = set_w (<[x := g]> (wg w)) w.
Proof. unfold upd_w. destruct (wg w !! x); [|done]. intros [= <-]. eauto. Qed.
Lemma named_ne l : named l = true -> l <> Var 0.
Proof. intros H ->. done. Qed.

Ltac zero_tac := cbn; rewrite ?lookup_insert_ne by congruence; rewrite ?lookup_delete_ne by congruence; eauto using rel_zero_s, rel_zero_w.
Ltac point_tac := repeat (apply pointing_insert || apply pointing_delete); cbn; eauto using rel_ps, rel_pw, pointing_null; try congruence.

(** ** Constructions *)
Lemma default_ok w s x w1 : rel w s -> room (shs s) (wks s) 1 -> x <> 0 -> new_s x None w = Some w1 -> ends w1 (s_default (Var x) s).
Proof.
  intros R Hr Nx H. apply new_s_inv in H as [N ->]. unfold s_default.
  destruct (st_new_sh _ _ _ _ _ x null (rel_st _ _ R)) as (s' & -> & S); [by eapply rel_s_none|done|].
  eapply finish0; [exact S| | | | | |]; [|exact (rel_ew _ _ R)|point_tac..|zero_tac|zero_tac].
  cbn. rewrite fmap_insert. by rewrite (rel_es _ _ R).
Qed.
Lemma wdefault_ok w s x w1 : rel w s -> room (shs s) (wks s) 1 -> x <> 0 -> new_w x None w = Some w1 -> ends w1 (w_default (Var x) s).
Proof.
  intros R Hr Nx H. apply new_w_inv in H as [N ->]. unfold w_default.
  destruct (st_new_wk _ _ _ _ _ x null (rel_st _ _ R)) as (s' & -> & S); [by eapply rel_w_none|done|].
  eapply finish0; [exact S| | | | | |]; [exact (rel_es _ _ R)| |point_tac..|zero_tac|zero_tac].
  cbn. rewrite fmap_insert. by rewrite (rel_ew _ _ R).
Qed.
Lemma copy_ok w s x y g w1 : rel w s -> room (shs s) (wks s) 1 -> x <> 0 -> sg w !! y = Some g -> new_s x g w = Some w1 ->
  ends w1 (s_copy (Var x) y s).
Proof.
  intros R Hr Nx Hy H. apply new_s_inv in H as [N ->]. destruct (rel_s _ _ _ _ R Hy) as (h & Eh & <- & Ph).
  destruct (s_copy_ok _ _ _ _ x y h (rel_st _ _ R) Eh) as (s' & -> & S); [by eapply rel_s_none|done|].
  eapply finish0; [exact S| | | | | |]; [|exact (rel_ew _ _ R)|point_tac..|zero_tac|zero_tac].
  cbn. rewrite fmap_insert. by rewrite (rel_es _ _ R).
Qed.
Lemma wcopy_ok w s x y g w1 : rel w s -> room (shs s) (wks s) 1 -> x <> 0 -> wg w !! y = Some g -> new_w x g w = Some w1 ->
  ends w1 (w_copy (Var x) y s).
Proof.
  intros R Hr Nx Hy H. apply new_w_inv in H as [N ->]. destruct (rel_w _ _ _ _ R Hy) as (h & Eh & <- & Ph).
  destruct (w_copy_ok _ _ _ _ x y h (rel_st _ _ R) Eh) as (s' & -> & S); [by eapply rel_w_none|done|].
  eapply finish0; [exact S| | | | | |]; [exact (rel_es _ _ R)| |point_tac..|zero_tac|zero_tac].
  cbn. rewrite fmap_insert. by rewrite (rel_ew _ _ R).
Qed.
Lemma wfrom_ok w s x y g w1 : rel w s -> room (shs s) (wks s) 1 -> x <> 0 -> sg w !! y = Some g -> new_w x g w = Some w1 ->
  ends w1 (w_from (Var x) y s).
Proof.
  intros R Hr Nx Hy H. apply new_w_inv in H as [N ->]. destruct (rel_s _ _ _ _ R Hy) as (h & Eh & <- & Ph).
  destruct (w_from_ok _ _ _ _ x y h (rel_st _ _ R) Eh) as (s' & -> & S); [by eapply rel_w_none|done|].
  eapply finish0; [exact S| | | | | |]; [exact (rel_es _ _ R)| |point_tac..|zero_tac|zero_tac].
  cbn. rewrite fmap_insert. by rewrite (rel_ew _ _ R).
Qed.
Lemma move_ok w s x y g w1 : rel w s -> room (shs s) (wks s) 1 -> x <> 0 -> sg w !! y = Some g -> named y = true ->
  (w' ← new_s x g w; upd_s y None w') = Some w1 -> ends w1 (s_move (Var x) y s).
Proof.
  intros R Hr Nx Hy Ny H. apply named_ne in Ny. destruct (new_s x g w) as [w'|] eqn:E; [|done]. cbn in H.
  apply new_s_inv in E as [N ->]. apply upd_s_inv in H as [_ ->]. destruct (rel_s _ _ _ _ R Hy) as (h & Eh & <- & Ph).
  destruct (s_move_ok _ _ _ _ x y h (rel_st _ _ R) Eh) as (s' & -> & S); [by eapply rel_s_none|done|].
  eapply finish0; [exact S| | | | | |]; [|exact (rel_ew _ _ R)|point_tac..|zero_tac|zero_tac].
  cbn. rewrite !fmap_insert, (rel_es _ _ R). apply insert_commute. congruence.
Qed.
Lemma wmove_ok w s x y g w1 : rel w s -> room (shs s) (wks s) 1 -> x <> 0 -> wg w !! y = Some g -> named y = true ->
  (w' ← new_w x g w; upd_w y None w') = Some w1 -> ends w1 (w_move (Var x) y s).
Proof.
  intros R Hr Nx Hy Ny H. apply named_ne in Ny. destruct (new_w x g w) as [w'|] eqn:E; [|done]. cbn in H.
  apply new_w_inv in E as [N ->]. apply upd_w_inv in H as [_ ->]. destruct (rel_w _ _ _ _ R Hy) as (h & Eh & <- & Ph).
  destruct (w_move_ok _ _ _ _ x y h (rel_st _ _ R) Eh) as (s' & -> & S); [by eapply rel_w_none|done|].
  eapply finish0; [exact S| | | | | |]; [exact (rel_es _ _ R)| |point_tac..|zero_tac|zero_tac].
  cbn. rewrite !fmap_insert, (rel_ew _ _ R). apply insert_commute. congruence.
Qed.

(** ** Assignments *)
Lemma assign_ok w s x y g w1 : rel w s -> room (shs s) (wks s) 1 -> named x = true -> sg w !! y = Some g -> upd_s x g w = Some w1 ->
  ends w1 (s_assign x y s).
Proof.
  intros R Hr Nx Hy H. apply named_ne in Nx. apply upd_s_inv in H as [[g0 Hx] ->].
  destruct (rel_s _ _ _ _ R Hy) as (h & Eh & <- & Ph). destruct (rel_s _ _ _ _ R Hx) as (h0 & Eh0 & <- & Ph0).
  unfold s_assign. destruct (s_copy_ok _ _ _ _ 0 y h (rel_st _ _ R) Eh) as (s1 & -> & S); [by eapply rel_s_none, rel_zero_s|done|].
  cbn [obind]. destruct (s_tail _ _ _ _ x h h0 S) as (s2 & -> & S2); [by eapply rel_s_none, rel_zero_s|done|done|].
  eapply finish; [exact S2| | | | | |]; [|exact (rel_ew _ _ R)|point_tac..|zero_tac|zero_tac].
  cbn. rewrite fmap_insert. by rewrite (rel_es _ _ R).
Qed.
Lemma assign_move_ok w s x y g w1 : rel w s -> room (shs s) (wks s) 1 -> named x = true -> named y = true -> sg w !! y = Some g ->
  (w' ← upd_s y None w; upd_s x g w') = Some w1 -> ends w1 (s_assign_move x y s).
Proof.
  intros R Hr Nx Ny Hy H. apply named_ne in Nx, Ny. destruct (upd_s y None w) as [w'|] eqn:E; [|done]. cbn in H.
  apply upd_s_inv in E as [_ ->]. apply upd_s_inv in H as [[g0 Hx] ->]. cbn in Hx.
  destruct (rel_s _ _ _ _ R Hy) as (h & Eh & <- & Ph).
  unfold s_assign_move. destruct (s_move_ok _ _ _ _ 0 y h (rel_st _ _ R) Eh) as (s1 & -> & S); [by eapply rel_s_none, rel_zero_s|done|].
  cbn [obind]. assert (Hx' : exists h0, <[y := null]> (shs s) !! x = Some h0).
  { rewrite <- (rel_es _ _ R) in Hx. change (@None nat) with (hc null) in Hx. rewrite <- fmap_insert, lookup_fmap in Hx.
    destruct (<[y := null]> (shs s) !! x) eqn:X; [eauto|done]. }
  destruct Hx' as [h0 Eh0].
  destruct (s_tail _ (<[y := null]> (shs s)) _ _ x h h0 S) as (s2 & -> & S2); [rewrite lookup_insert_ne by done; by eapply rel_s_none, rel_zero_s|done|done|].
  eapply finish; [exact S2| | | | | |]; [|exact (rel_ew _ _ R)|point_tac..|zero_tac|zero_tac].
  cbn. rewrite !fmap_insert. by rewrite (rel_es _ _ R).
Qed.
Lemma assign_null_ok w s x w1 : rel w s -> room (shs s) (wks s) 1 -> named x = true -> upd_s x None w = Some w1 -> ends w1 (s_assign_null x s).
Proof.
  intros R Hr Nx H. apply named_ne in Nx. apply upd_s_inv in H as [[g0 Hx] ->].
  destruct (rel_s _ _ _ _ R Hx) as (h0 & Eh0 & <- & Ph0).
  unfold s_assign_null, s_default. destruct (st_new_sh _ _ _ _ _ 0 null (rel_st _ _ R)) as (s1 & -> & S); [by eapply rel_s_none, rel_zero_s|done|].
  cbn [obind]. destruct (s_tail _ _ _ _ x null h0 S) as (s2 & -> & S2); [by eapply rel_s_none, rel_zero_s|done|done|].
  eapply finish; [exact S2| | | | | |]; [|exact (rel_ew _ _ R)|point_tac..|zero_tac|zero_tac].
  cbn. rewrite fmap_insert. by rewrite (rel_es _ _ R).
Qed.
Lemma wassign_ok w s x y g w1 : rel w s -> room (shs s) (wks s) 1 -> named x = true -> wg w !! y = Some g -> upd_w x g w = Some w1 ->
  ends w1 (w_assign x y s).
Proof.
  intros R Hr Nx Hy H. apply named_ne in Nx. apply upd_w_inv in H as [[g0 Hx] ->].
  destruct (rel_w _ _ _ _ R Hy) as (h & Eh & <- & Ph). destruct (rel_w _ _ _ _ R Hx) as (h0 & Eh0 & <- & Ph0).
  unfold w_assign. destruct (w_copy_ok _ _ _ _ 0 y h (rel_st _ _ R) Eh) as (s1 & -> & S); [by eapply rel_w_none, rel_zero_w|done|].
  cbn [obind]. destruct (w_tail _ _ _ _ x h h0 S) as (s2 & -> & S2); [by eapply rel_w_none, rel_zero_w|done|done|].
  eapply finish0; [exact S2| | | | | |]; [exact (rel_es _ _ R)| |point_tac..|zero_tac|zero_tac].
  cbn. rewrite fmap_insert. by rewrite (rel_ew _ _ R).
Qed.
Lemma wassign_move_ok w s x y g w1 : rel w s -> room (shs s) (wks s) 1 -> named x = true -> named y = true -> wg w !! y = Some g ->
  (w' ← upd_w y None w; upd_w x g w') = Some w1 -> ends w1 (w_assign_move x y s).
Proof.
  intros R Hr Nx Ny Hy H. apply named_ne in Nx, Ny. destruct (upd_w y None w) as [w'|] eqn:E; [|done]. cbn in H.
  apply upd_w_inv in E as [_ ->]. apply upd_w_inv in H as [[g0 Hx] ->]. cbn in Hx.
  destruct (rel_w _ _ _ _ R Hy) as (h & Eh & <- & Ph).
  unfold w_assign_move. destruct (w_move_ok _ _ _ _ 0 y h (rel_st _ _ R) Eh) as (s1 & -> & S); [by eapply rel_w_none, rel_zero_w|done|].
  cbn [obind]. assert (Hx' : exists h0, <[y := null]> (wks s) !! x = Some h0).
  { rewrite <- (rel_ew _ _ R) in Hx. change (@None nat) with (hc null) in Hx. rewrite <- fmap_insert, lookup_fmap in Hx.
    destruct (<[y := null]> (wks s) !! x) eqn:X; [eauto|done]. }
  destruct Hx' as [h0 Eh0].
  destruct (w_tail _ _ (<[y := null]> (wks s)) _ x h h0 S) as (s2 & -> & S2); [rewrite lookup_insert_ne by done; by eapply rel_w_none, rel_zero_w|done|done|].
  eapply finish0; [exact S2| | | | | |]; [exact (rel_es _ _ R)| |point_tac..|zero_tac|zero_tac].
  cbn. rewrite !fmap_insert. by rewrite (rel_ew _ _ R).
Qed.
Lemma wassign_from_ok w s x y g w1 : rel w s -> room (shs s) (wks s) 1 -> named x = true -> sg w !! y = Some g -> upd_w x g w = Some w1 ->
  ends w1 (w_assign_from x y s).
Proof.
  intros R Hr Nx Hy H. apply named_ne in Nx. apply upd_w_inv in H as [[g0 Hx] ->].
  destruct (rel_s _ _ _ _ R Hy) as (h & Eh & <- & Ph). destruct (rel_w _ _ _ _ R Hx) as (h0 & Eh0 & <- & Ph0).
  destruct (w_assign_from_ok _ _ _ _ x y h h0 (rel_st _ _ R) Eh Eh0) as (s1 & -> & S); [by eapply rel_w_none, rel_zero_w|done|].
  eapply finish0; [exact S| | | | | |]; [exact (rel_es _ _ R)| |point_tac..|zero_tac|zero_tac].
  cbn. rewrite fmap_insert. by rewrite (rel_ew _ _ R).
Qed.

(** ** Swapping, ending, clearing *)
Lemma swap_ok w s x y g h w1 : rel w s -> named x = true -> named y = true -> sg w !! x = Some g -> sg w !! y = Some h ->
  (w' ← upd_s x h w; upd_s y g w') = Some w1 -> ends w1 (s_swap x y s).
Proof.
  intros R Nx Ny Hx Hy H. apply named_ne in Nx, Ny. destruct (upd_s x h w) as [w'|] eqn:E; [|done]. cbn in H.
  apply upd_s_inv in E as [_ ->]. apply upd_s_inv in H as [_ ->].
  destruct (rel_s _ _ _ _ R Hx) as (hx & Ex & <- & Px). destruct (rel_s _ _ _ _ R Hy) as (hy & Ey & <- & Py).
  destruct (st_swap _ _ _ _ _ _ x y hx hy (rel_st _ _ R) Ex Ey) as (s1 & -> & S).
  eapply finish0; [exact S| | | | | |]; [|exact (rel_ew _ _ R)|point_tac..|zero_tac|zero_tac].
  cbn. rewrite !fmap_insert. by rewrite (rel_es _ _ R).
Qed.
Lemma wswap_ok w s x y g h w1 : rel w s -> named x = true -> named y = true -> wg w !! x = Some g -> wg w !! y = Some h ->
  (w' ← upd_w x h w; upd_w y g w') = Some w1 -> ends w1 (w_swap x y s).
Proof.
  intros R Nx Ny Hx Hy H. apply named_ne in Nx, Ny. destruct (upd_w x h w) as [w'|] eqn:E; [|done]. cbn in H.
  apply upd_w_inv in E as [_ ->]. apply upd_w_inv in H as [_ ->].
  destruct (rel_w _ _ _ _ R Hx) as (hx & Ex & <- & Px). destruct (rel_w _ _ _ _ R Hy) as (hy & Ey & <- & Py).
  destruct (st_wswap _ _ _ _ _ _ x y hx hy (rel_st _ _ R) Ex Ey) as (s1 & -> & S).
  eapply finish0; [exact S| | | | | |]; [exact (rel_es _ _ R)| |point_tac..|zero_tac|zero_tac].
  cbn. rewrite !fmap_insert. by rewrite (rel_ew _ _ R).
Qed.
Lemma drop_ok w s x w1 : rel w s -> x <> 0 -> (_ ← sg w !! Var x; Some (set_s (delete (Var x) (sg w)) w)) = Some w1 -> ends w1 (s_drop (Var x) s).
Proof.
  intros R Nx H. destruct (sg w !! Var x) as [g|] eqn:Hx; [|done]. injection H as <-.
  destruct (rel_s _ _ _ _ R Hx) as (h & Eh & _ & Ph). unfold s_drop, sh. rewrite Eh. cbn [of_option obind].
  pose proof (st_end_sh _ _ _ _ _ _ _ (rel_st _ _ R) Eh) as S.
  eapply finish; [exact S| | | | | |]; [|exact (rel_ew _ _ R)|point_tac..|zero_tac|zero_tac].
  cbn. rewrite fmap_delete. by rewrite (rel_es _ _ R).
Qed.
Lemma wdrop_ok w s x w1 : rel w s -> x <> 0 -> (_ ← wg w !! Var x; Some (set_w (delete (Var x) (wg w)) w)) = Some w1 -> ends w1 (w_drop (Var x) s).
Proof.
  intros R Nx H. destruct (wg w !! Var x) as [g|] eqn:Hx; [|done]. injection H as <-.
  destruct (rel_w _ _ _ _ R Hx) as (h & Eh & _ & Ph). unfold w_drop, wk. rewrite Eh. cbn [of_option obind].
  pose proof (st_end_wk _ _ _ _ _ _ _ (rel_st _ _ R) Eh) as S. destruct (st_wrelease _ _ _ _ _ _ S) as (s1 & -> & S1).
  eapply finish0; [exact S1| | | | | |]; [exact (rel_es _ _ R)| |point_tac..|zero_tac|zero_tac].
  cbn. rewrite fmap_delete. by rewrite (rel_ew _ _ R).
Qed.
(** [s_reset] up to the release *)
Lemma s_reset_st K m n s x h : st K None None m n s -> m !! x = Some h ->
  exists s1, s_reset x s = shared_count_release (hc h) s1 /\ st K (hc h) None (<[x := null]> m) n s1.
Proof.
  intros S E. unfold s_reset, sh. pose proof S as (_ & -> & _). rewrite E. cbn [of_option obind].
  destruct (st_fix_sh _ _ _ _ _ _ x h {| hp := None; hc := hc h |} S E) as (s1 & -> & S1); [done|]. cbn [obind].
  destruct (st_put_sh _ _ _ _ _ x {| hp := None; hc := hc h |} {| hp := None; hc := None |} S1) as (s2 & -> & S2); [apply lookup_insert|].
  cbn [obind]. exists s2. split; [done|]. by rewrite insert_insert in S2.
Qed.
Lemma reset_ok w s x w1 : rel w s -> named x = true -> upd_s x None w = Some w1 -> ends w1 (s_reset x s).
Proof.
  intros R Nx H. apply named_ne in Nx. apply upd_s_inv in H as [[g0 Hx] ->].
  destruct (rel_s _ _ _ _ R Hx) as (h0 & Eh0 & <- & Ph0). destruct (s_reset_st _ _ _ _ x h0 (rel_st _ _ R) Eh0) as (s1 & -> & S).
  eapply finish; [exact S| | | | | |]; [|exact (rel_ew _ _ R)|point_tac..|zero_tac|zero_tac].
  cbn. rewrite fmap_insert. by rewrite (rel_es _ _ R).
Qed.

(** ** New groups *)
Lemma fresh_zero g l b w x : (fresh_members g 0 l b ∪ w : hmap) !! Var x = w !! Var x.
Proof. apply lookup_union_r. apply fresh_none. done. Qed.
Lemma new_let {A} r s (f : option nat -> nat -> state -> A) o b s' :
  (let (o, s) := new_obj r s in let (b, s) := new_block o s in (o, b, s)) = (o, b, s') ->
  (let (o, s) := new_obj r s in let (b, s) := new_block o s in f o b s) = f o b s'.
Proof. destruct (new_obj r s) as [o0 s0]. destruct (new_block o0 s0) as [b0 s1]. by intros [= <- <- <-]. Qed.

Lemma make_ok w s x r w1 : rel w s -> room (shs s) (wks s) (length (layout r) + 2) -> x <> 0 ->
  (w' ← new_s x (Some (length (kinds w))) (add_group r w); link r w') = Some w1 -> ends w1 (s_make (Var x) r s).
Proof.
  intros R Hr Nx H. destruct (new_s x (Some (length (kinds w))) (add_group r w)) as [w'|] eqn:E; [|done]. cbn in H.
  apply new_s_inv in E as [Hx ->]. set (K := kinds w) in *. set (N := length K) in *.
  cbn [sg add_group] in Hx. fold K N in Hx. rewrite fresh_zero in Hx.
  assert (Hx' : shs s !! Var x = None) by (by eapply rel_s_none).
  destruct (st_new_group _ _ _ _ _ r (rel_st _ _ R)) as (s1 & E1 & S1 & Fn & On & _); [eapply room_le; [done|lia]|].
  fold K N in E1, S1, Fn, On.
  assert (Rm : room (fresh_handles N 0 (layout r) true ∪ shs s) (fresh_handles N 0 (layout r) false ∪ wks s) 2).
  { unfold room in *. rewrite !map_size_disj_union.
    - pose proof (fresh_size N 0 (layout r)). unfold fresh_handles. rewrite !map_size_fmap. lia.
    - apply map_disjoint_spec. intros y h1 h2 Q1 Q2. unfold fresh_handles in Q1. rewrite lookup_fmap in Q1.
      destruct (fresh_members N 0 (layout r) false !! y) eqn:Q; [|done]. apply fresh_lookup in Q as (_ & i & -> & _).
      pose proof (Fn false (0 + i)) as Z. cbn [hs] in Z. by rewrite Z in Q2.
    - apply map_disjoint_spec. intros y h1 h2 Q1 Q2. unfold fresh_handles in Q1. rewrite lookup_fmap in Q1.
      destruct (fresh_members N 0 (layout r) true !! y) eqn:Q; [|done]. apply fresh_lookup in Q as (_ & i & -> & _).
      pose proof (Fn true (0 + i)) as Z. cbn [hs] in Z. by rewrite Z in Q2. }
  assert (P1 : pointing (K ++ [r]) (fresh_handles N 0 (layout r) true ∪ shs s)) by (eapply pointing_app_s; [by apply rel_st|by apply rel_ps]).
  assert (P2 : pointing (K ++ [r]) (fresh_handles N 0 (layout r) false ∪ wks s)) by (eapply pointing_app_w; [by apply rel_st|by apply rel_pw]).
  unfold s_make. erewrite new_let by exact E1.
  set (o := pts (K ++ [r]) (Some N)) in *.
  destruct (st_new_sh _ _ _ _ s1 x {| hp := o; hc := Some N |} S1) as (s2 & E2 & S2).
  { rewrite lookup_union_r; [done|]. unfold fresh_handles. rewrite lookup_fmap, fresh_none; done. }
  { eapply room_le; [done|lia]. }
  assert (O2 : objs s2 = objs s1) by (unfold new_sh in E2; destruct (shs s1 !! Var x); [done|]; injection E2 as <-; done).
  rewrite E2. cbn [obind].
  assert (Es : hc <$> <[Var x := {| hp := o; hc := Some N |}]> (fresh_handles N 0 (layout r) true ∪ shs s) =
    <[Var x := Some N]> (fresh_members N 0 (layout r) true ∪ sg w)).
  { rewrite fmap_insert, map_fmap_union, fresh_handles_hc, (rel_es _ _ R). done. }
  assert (Ew : hc <$> (fresh_handles N 0 (layout r) false ∪ wks s) = fresh_members N 0 (layout r) false ∪ wg w).
  { rewrite map_fmap_union, fresh_handles_hc, (rel_ew _ _ R). done. }
  assert (Ko : (K ++ [r]) !! N = Some r) by (rewrite lookup_app_r by lia; unfold N; by rewrite Nat.sub_diag).
  assert (Plain : construct_shared_from_this (Var x) s2 = Ok s2 -> link r (set_s (<[Var x:=Some N]> (sg (add_group r w))) (add_group r w)) = Some (set_s (<[Var x:=Some N]> (sg (add_group r w))) (add_group r w)) ->
    ends w1 (construct_shared_from_this (Var x) s2)).
  { intros -> L. rewrite L in H. injection H as <-. eapply finish0; [exact S2|exact Es|exact Ew| |done| |].
    - apply pointing_insert; done.
    - cbn [sg wg set_s set_w add_group]. rewrite lookup_insert_ne by congruence. rewrite fresh_zero. by eapply rel_zero_s.
    - cbn [sg wg set_s set_w add_group]. rewrite fresh_zero. by eapply rel_zero_w. }
  assert (Ec : construct_shared_from_this (Var x) s2 = match o with None => Ok s2 | Some o =>
      (v <~ of_option (objs s2 !! o) ; if from_this v then w_assign_from (Field o 0) (Var x) s2 else Ok s2)%outcome end).
  { unfold construct_shared_from_this, sh. pose proof S2 as (_ & -> & _). rewrite lookup_insert. done. }
  assert (Eo : o = if has_object r then Some N else None) by (unfold o, pts; by rewrite Ko).
  clearbody o. destruct r as [|self l]; cbn [has_object] in Eo; subst o; [by apply Plain|].
  rewrite O2, On in Ec. cbn [body of_option obind from_this] in Ec.
  destruct self; [|by apply Plain]. rewrite Ec. cbn [link kinds set_s add_group] in H. fold K N in H. rewrite app_length in H.
  fold N in H. cbn [length] in H. replace (N + 1 - 1) with N in H by lia. apply upd_w_inv in H as [_ ->].
  destruct (w_assign_from_ok _ _ _ _ (Field N 0) (Var x) {| hp := Some N; hc := Some N |} null S2) as (s3 & E3 & S3).
  { apply lookup_insert. }
  { apply lookup_union_Some_l. unfold fresh_handles. rewrite lookup_fmap.
    pose proof (fresh_has N 0 (layout (RObj true l)) false 0 eq_refl) as Z. cbn [Nat.add] in Z. rewrite Z. done. }
  { rewrite lookup_union_r; [by eapply rel_w_none, rel_zero_w|]. unfold fresh_handles. rewrite lookup_fmap, fresh_none; done. }
  { unfold room in *. rewrite map_size_insert_None; [lia|]. rewrite lookup_union_r; [done|]. unfold fresh_handles. rewrite lookup_fmap, fresh_none; done. }
  rewrite E3. eapply finish0; [exact S3|exact Es| | | | |].
  - rewrite fmap_insert, Ew. done.
  - apply pointing_insert; [done|]. cbn. fold K N. unfold pts. rewrite Ko. done.
  - apply pointing_insert; [done|]. cbn. fold K N. unfold pts. rewrite Ko. done.
  - cbn [sg wg set_s set_w add_group]. rewrite lookup_insert_ne by congruence. rewrite fresh_zero. by eapply rel_zero_s.
  - cbn [sg wg set_s set_w add_group]. rewrite lookup_insert_ne by congruence. rewrite fresh_zero. by eapply rel_zero_w.
Qed.

(** ** Locking *)
Lemma lock_ok w s x g l h w1 : rel w s -> room (shs s) (wks s) 2 -> x <> 0 -> wks s !! l = Some h -> hc h = g -> lock_group x g w = Some w1 ->
  ends w1 (lock_into (Var x) h s).
Proof.
  intros R Hr Nx Eh Eg H. unfold lock_into. rewrite Eg.
  assert (Al : alone x w = Some w1 -> ends w1 (s_make (Var x) RNull s)).
  { intros Q. apply (make_ok w); [done|done|done|]. unfold alone in Q. rewrite Q. done. }
  destruct g as [g|]; cbn in H; [|by cbn; apply Al].
  unfold alive in H. destruct (members (sg w) g =? 0) eqn:M; cbn in H.
  - apply Nat.eqb_eq in M. rewrite (st_lock_dead _ _ _ _ g l (rel_st _ _ R)); [by cbn; apply Al|by rewrite (rel_es _ _ R)|].
    by rewrite lookup_fmap, Eh; cbn; rewrite Eg.
  - apply Nat.eqb_neq in M. apply new_s_inv in H as [N ->].
    destruct (st_lock _ _ _ _ g (rel_st _ _ R)) as (s1 & -> & S1); [rewrite (rel_es _ _ R); lia|]. cbn [obind].
    rewrite <- Eg in S1.
    destruct (st_new_sh _ _ _ _ s1 x h S1) as (s2 & -> & S2); [by eapply rel_s_none|eapply room_le; [done|lia]|].
    assert (Ph : hp h = pts (kinds w) (hc h)) by (by apply (rel_pw _ _ R l)).
    eapply finish0; [exact S2| | | | | |]; [|exact (rel_ew _ _ R)|point_tac..|zero_tac|zero_tac].
    cbn. rewrite fmap_insert, Eg. by rewrite (rel_es _ _ R).
Qed.
Lemma this_member_ok w s y g o : rel w s -> sg w !! y = Some g -> own_group g w = Some o ->
  exists h g', this_member y s = Ok h /\ wks s !! Field g' 0 = Some h /\ hc h = o.
Proof.
  intros R Hy Ho. destruct g as [g|]; [|done]. unfold own_group in Ho. cbn in Ho.
  destruct (kinds w !! g) as [[|[|] l]|] eqn:Hk; try done. destruct (rel_w _ _ _ _ R Ho) as (h & Eh & Eo & _).
  destruct (rel_s _ _ _ _ R Hy) as (hy & Ey & Eg & Py). exists h, g. split; [|done].
  unfold this_member, sh. rewrite Ey. cbn [of_option obind]. rewrite Py. unfold pts. rewrite Hk. cbn [has_object of_option obind].
  assert (Og : objs s !! g = body (RObj true l)).
  { destruct R as ((C & _) & Es & _). rewrite (ent_obj _ _ _ _ _ _ (core_ent _ _ _ _ _ C g _ Hk)).
    unfold A. rewrite Es, bump_none, Nat.add_0_r. pose proof (members_pos _ _ _ Hy) as M. destruct (Nat.eqb_spec (members (sg w) g) 0); [lia|done]. }
  rewrite Og. cbn [body of_option obind from_this]. unfold wk. rewrite Eh. done.
Qed.

(** ** reset(p) and the converting assignment, which use the handle after the old object went *)
Lemma goes_sub (m m' : hmap) : (forall l g, m' !! l = Some (Some g) -> m !! l = Some (Some g) \/ exists o i, l = Field o i /\ goes m' o) ->
  forall g, goes m g -> goes m' g.
Proof.
  intros H. apply goes_rect'. intros g G. constructor. intros l E. destruct (H l g E) as [E'|E']; [|done].
  destruct (G l E') as (o & i & -> & _ & P). eauto.
Qed.
(** A release leaves a handle that does not belong to an object that goes. *)
Lemma release_stays K e m n s x h : st K e None m n s -> m !! x = Some h ->
  match x with inl _ => True | inr (o, _) => ~ goes (hc <$> m) o end ->
  exists s', shared_count_release e s = Ok s' /\ inv K None None ∅ s' /\ shs s' !! x = Some h /\
    forall b l, hs b s' !! l = hs b s !! l \/ exists o i, l = Field o i /\ goes (hc <$> m) o /\ hs b s' !! l = None.
Proof.
  intros S E Hx. destruct (st_release _ _ _ _ _ S) as (s' & E' & I' & G & Y). exists s'. split; [done|]. split; [done|].
  assert (Q : forall b l, hs b s' !! l = hs b s !! l \/ exists o i, l = Field o i /\ goes (hc <$> m) o /\ hs b s' !! l = None).
  { intros b l. destruct G as (_ & _ & G). destruct (G b l) as [X|(o & i & -> & X & [[U V]|U])]; [by left| |by apply elem_of_empty in U].
    right. exists o, i. split; [done|]. split; [|done]. by apply Y. }
  split; [|done]. destruct S as (_ & <- & _). destruct (Q true x) as [X|(o & i & -> & X & _)]; cbn in *; [by rewrite X|done].
Qed.

Lemma reset_to_ok w s x r w1 : rel w s -> room (shs s) (wks s) (length (layout r) + 2) -> named x = true -> survives (SResetTo x r) w ->
  (_ ← sg w !! x; upd_s x (Some (length (kinds w))) (add_group r w)) = Some w1 -> ends w1 (s_reset_to x r s).
Proof.
  intros R Hr Nx Sv H. apply named_ne in Nx. destruct (sg w !! x) as [g0|] eqn:Hx; [|done]. cbn [mbind option_bind] in H.
  apply upd_s_inv in H as [_ ->]. destruct (rel_s _ _ _ _ R Hx) as (h & Eh & <- & Ph).
  set (K := kinds w) in *. set (N := length K) in *.
  destruct (st_new_group _ _ _ _ _ r (rel_st _ _ R)) as (s1 & E1 & S1 & Fn & On & _); [eapply room_le; [done|lia]|].
  fold K N in E1, S1, Fn, On. set (m := fresh_handles N 0 (layout r) true ∪ shs s) in *. set (n := fresh_handles N 0 (layout r) false ∪ wks s) in *.
  assert (NF : forall i, x <> Field N i) by (intros i ->; pose proof (Fn true i) as Z; cbn in Z; congruence).
  assert (Ex : m !! x = Some h).
  { unfold m. rewrite lookup_union_r; [done|]. unfold fresh_handles. rewrite lookup_fmap, fresh_none; auto. }
  assert (P1 : pointing (K ++ [r]) m) by (eapply pointing_app_s; [by apply rel_st|by apply rel_ps]).
  assert (P2 : pointing (K ++ [r]) n) by (eapply pointing_app_w; [by apply rel_st|by apply rel_pw]).
  unfold s_reset_to. erewrite new_let by exact E1.
  set (o := pts (K ++ [r]) (Some N)) in *. unfold sh at 1. pose proof S1 as (_ & -> & _). rewrite Ex. cbn [of_option obind].
  destruct (st_put_sh _ _ _ _ s1 x h {| hp := hp h; hc := Some N |} S1 Ex) as (s2 & -> & S2). cbn [obind].
  assert (Es : hc <$> <[x := {| hp := hp h; hc := Some N |}]> m = <[x := Some N]> (fresh_members N 0 (layout r) true ∪ sg w)).
  { unfold m. rewrite fmap_insert, map_fmap_union, fresh_handles_hc, (rel_es _ _ R). done. }
  assert (Ew : hc <$> n = fresh_members N 0 (layout r) false ∪ wg w).
  { unfold n. rewrite map_fmap_union, fresh_handles_hc, (rel_ew _ _ R). done. }
  destruct (release_stays _ _ _ _ _ x {| hp := hp h; hc := Some N |} S2) as (s3 & -> & I3 & X3 & Q3).
  { apply lookup_insert. }
  { destruct x as [x|[o' i]]; [done|]. cbn [survives] in Sv. intros G. apply Sv.
    rewrite Es in G. revert G. apply goes_sub. intros l g. rewrite !lookup_insert_Some.
    intros [[_ [=]]|[Ne El]]. left. right. split; [done|]. rewrite lookup_union_r; [done|].
    apply fresh_none. intros j _ ->. pose proof (Fn true j) as Z. cbn [hs] in Z.
    rewrite <- (rel_es _ _ R), lookup_fmap, Z in El. done. }
  cbn [obind]. assert (S3 : st (K ++ [r]) None None (shs s3) (wks s3) s3) by done.
  destruct (st_fix_sh _ _ _ _ _ _ x _ {| hp := o; hc := Some N |} S3 X3) as (s4 & E4 & S4); [done|]. rewrite E4.
  set (w1 := set_s (<[x:=Some N]> (sg (add_group r w))) (add_group r w)).
  assert (M4 : hc <$> shs s4 = hc <$> shs s3).
  { pose proof S4 as (_ & -> & _). rewrite fmap_insert. apply insert_id. by rewrite lookup_fmap, X3. }
  assert (N4 : wks s4 = wks s3) by apply S4.
  assert (M2 : shs s2 = <[x := {| hp := hp h; hc := Some N |}]> m) by apply S2.
  assert (N2 : wks s2 = n) by apply S2.
  assert (T : settled w1 (abs (K ++ [r]) s4)).
  { apply (settle w1); [apply S4|]. intros b l. destruct (Q3 b l) as [X|(o' & i & -> & G & X)].
    - left. destruct b; cbn [hs maps] in *.
      + rewrite M4, lookup_fmap, X, M2, <- lookup_fmap, Es. done.
      + rewrite N4, lookup_fmap, X, N2, <- lookup_fmap, Ew. done.
    - right. exists o', i. split; [done|]. rewrite Es in G. split; [done|]. destruct b; cbn [hs] in *.
      + pose proof (f_equal (fun q => q !! Field o' i) M4) as Z. cbn in Z. rewrite !lookup_fmap, X in Z. by destruct (shs s4 !! Field o' i).
      + by rewrite N4. }
  exists s4, (abs (K ++ [r]) s4). split; [done|]. split; [exact T|]. split; [apply S4|]. split; [done|]. split; [done|].
  cbn [kinds abs]. split; [|split; [|split]].
  - pose proof S4 as (_ & -> & _). intros l h'. rewrite lookup_insert_Some. intros [[_ <-]|[Ne El]]; [done|].
    destruct (Q3 true l) as [X|(?&?&_&_&X)]; cbn [hs] in X; [|congruence]. rewrite X, M2, lookup_insert_ne in El by done. by apply (P1 l).
  - rewrite N4. intros l h' El. destruct (Q3 false l) as [X|(?&?&_&_&X)]; cbn [hs] in X; [|congruence].
    rewrite X, N2 in El. by apply (P2 l).
  - destruct T as (_ & -> & _). unfold w1. cbn [sg set_s add_group]. rewrite lookup_insert_ne by done. rewrite fresh_zero. by eapply rel_zero_s.
  - destruct T as (_ & _ & -> & _). unfold w1. cbn [wg set_s add_group]. rewrite fresh_zero. by eapply rel_zero_w.
Qed.

Lemma assign_conv_ok w s x y g w1 : rel w s -> room (shs s) (wks s) 2 -> named x = true -> named y = true -> survives (SAssignConv x y) w ->
  sg w !! y = Some g -> upd_s x g w = Some w1 -> ends w1 (s_assign_conv x y s).
Proof.
  intros R Hr Nx Ny Sv Hy H. apply named_ne in Nx, Ny. apply upd_s_inv in H as [[g0 Hx] ->].
  destruct (rel_s _ _ _ _ R Hy) as (hy & Ey & Eg & Py). destruct (rel_s _ _ _ _ R Hx) as (hx & Ex & <- & Px).
  set (K := kinds w) in *. assert (Z0 : shs s !! Var 0 = None) by (by eapply rel_s_none, rel_zero_s).
  unfold s_assign_conv. destruct (s_copy_ok _ _ _ _ 0 y hy (rel_st _ _ R) Ey) as (s1 & -> & S1); [done|eapply room_le; [done|lia]|].
  cbn [obind]. destruct (s_reset_st _ _ _ _ x hx S1) as (s2 & -> & S2); [by rewrite lookup_insert_ne|].
  set (C := <[x := null]> (<[Var 0 := hy]> (shs s))) in *.
  assert (EC : hc <$> C = <[x := None]> (<[Var 0 := g]> (sg w))).
  { unfold C. rewrite !fmap_insert, (rel_es _ _ R), Eg. done. }
  assert (NG : match x with inl _ => True | inr (o, _) => ~ goes (hc <$> C) o end).
  { destruct x as [x|[o i]]; [done|]. rewrite EC. by apply Sv. }
  assert (C0 : C !! Var 0 = Some hy) by (unfold C; rewrite lookup_insert_ne by done; apply lookup_insert).
  destruct (release_stays _ _ _ _ _ x null S2) as (s3 & -> & I3 & X3 & Q3); [apply lookup_insert|done|]. cbn [obind].
  assert (M2 : shs s2 = C) by apply S2. assert (N2 : wks s2 = wks s) by apply S2.
  assert (V3 : shs s3 !! Var 0 = Some hy).
  { destruct (Q3 true (Var 0)) as [X|(?&?&?&_)]; [|done]. cbn [hs] in X. by rewrite X, M2. }
  unfold sh. rewrite V3. cbn [of_option obind]. rewrite X3. cbn [of_option obind].
  assert (S3 : st K None None (shs s3) (wks s3) s3) by done. set (m := shs s3) in *. set (n := wks s3) in *.
  destruct (st_fix_sh _ _ _ _ _ _ x null {| hp := hp hy; hc := hc null |} S3 X3) as (s4 & -> & S4); [done|]. cbn [obind].
  destruct (st_copy _ _ _ _ _ (Var 0) hy S4) as (s5 & -> & S5); [by rewrite lookup_insert_ne|]. cbn [obind].
  destruct (st_put_sh _ _ _ _ _ x {| hp := hp hy; hc := hc null |} {| hp := hp hy; hc := hc hy |} S5) as (s6 & -> & S6); [apply lookup_insert|].
  cbn [obind]. rewrite insert_insert in S6.
  replace ({| hp := hp hy; hc := hc hy |}) with hy in S6 by (by destruct hy).
  change (shared_count_release (hc null) s6) with (Ok s6 : outcome state). cbn [obind].
  unfold s_drop, sh. assert (V6 : <[x := hy]> m !! Var 0 = Some hy) by (by rewrite lookup_insert_ne).
  pose proof S6 as (_ & -> & _). rewrite V6. cbn [of_option obind].
  pose proof (st_end_sh _ _ _ _ _ _ _ S6 V6) as S7.
  assert (X7 : exists s8, shared_count_release (hc hy) (end_sh (Var 0) s6) = Ok s8 /\ st K None None (delete (Var 0) (<[x := hy]> m)) n s8).
  { destruct (hc hy) as [gy|] eqn:Egy; [|by eexists]. destruct (st_release_more _ _ _ _ _ S7) as (s8 & E8 & S8 & _); [|eauto].
    apply (members_pos _ x). rewrite lookup_fmap, lookup_delete_ne, lookup_insert by done. cbn. by rewrite Egy. }
  destruct X7 as (s8 & E8 & S8). rewrite E8.
  assert (M8 : shs s8 = delete (Var 0) (<[x := hy]> m)) by apply S8. assert (N8 : wks s8 = n) by apply S8.
  set (w1 := set_s (<[x:=g]> (sg w)) w).
  (* the same objects go *)
  assert (GW : forall g', goes (hc <$> C) g' -> goes (sg w1) g').
  { apply goes_rect'. intros g' G. constructor. intros l El. unfold w1 in El. cbn [sg set_s] in El.
    apply lookup_insert_Some in El as [[<- ->]|[Ne El]].
    - destruct (G (Var 0)) as (?&?&?&_); [|done]. by rewrite lookup_fmap, C0; cbn; rewrite Eg.
    - destruct (G l) as (o & i & -> & _ & P); [|eauto]. rewrite EC, !lookup_insert_ne; [done| |done].
      intros <-. rewrite (rel_zero_s _ _ R) in El. done. }
  assert (T : settled w1 (abs K s8)).
  { apply (settle w1); [apply S8|]. intros b l. destruct (Q3 b l) as [X|(o' & i & -> & G & X)].
    - left. destruct b; cbn [hs maps] in *.
      + rewrite M8. unfold w1. cbn [sg set_s]. rewrite fmap_delete, fmap_insert, Eg. fold m in X.
        destruct (decide (l = Var 0)) as [->|N0].
        * rewrite lookup_delete, lookup_insert_ne by done. by rewrite (rel_zero_s _ _ R).
        * rewrite lookup_delete_ne by done. destruct (decide (l = x)) as [->|Nl]; [by rewrite !lookup_insert|].
          rewrite !lookup_insert_ne, lookup_fmap by done. rewrite X, M2. unfold C. rewrite !lookup_insert_ne by done.
          by rewrite <- lookup_fmap, (rel_es _ _ R).
      + rewrite N8, lookup_fmap. fold n in X. rewrite X, N2, <- lookup_fmap, (rel_ew _ _ R). done.
    - right. exists o', i. split; [done|]. split; [by apply GW|]. destruct b; cbn [hs] in *.
      + rewrite M8, lookup_delete_ne by done. rewrite lookup_insert_ne; [done|]. intros ->. done.
      + by rewrite N8. }
  exists s8, (abs K s8). split; [done|]. split; [exact T|]. split; [apply S8|]. split; [done|]. split; [done|].
  cbn [kinds abs]. split; [|split; [|split]].
  - rewrite M8. apply pointing_delete, pointing_insert; [|by rewrite Eg]. intros l h' El.
    destruct (Q3 true l) as [X|(?&?&_&_&X)]; cbn [hs] in X; fold m in X; [|congruence]. rewrite X, M2 in El. unfold C in El.
    apply lookup_insert_Some in El as [[_ <-]|[_ El]]; [done|]. apply lookup_insert_Some in El as [[_ <-]|[_ El]]; [by rewrite Eg|].
    by apply (rel_ps _ _ R l).
  - rewrite N8. intros l h' El. destruct (Q3 false l) as [X|(?&?&_&_&X)]; cbn [hs] in X; fold n in X; [|congruence].
    rewrite X, N2 in El. by apply (rel_pw _ _ R l).
  - destruct T as (_ & -> & _). unfold w1. cbn [sg set_s]. rewrite lookup_insert_ne by done. by eapply rel_zero_s.
  - destruct T as (_ & _ & -> & _). by eapply (rel_zero_w w).
Qed.

(** * Every command *)
Lemma nz x : negb (x =? 0) = true -> x <> 0.
Proof. intros H ->. done. Qed.
Theorem step_ok c w s w1 : rel w s -> room (shs s) (wks s) (made_by c + 2) -> proper c = true -> survives c w -> sstep c w = Some w1 ->
  ends w1 (step c s).
Proof.
  intros R Hr Pr Sv H.
  assert (H1 : room (shs s) (wks s) 1) by (eapply room_le; [exact Hr|lia]).
  assert (H2 : room (shs s) (wks s) 2) by (eapply room_le; [exact Hr|lia]).
  destruct c; cbn [sstep step proper] in *; repeat (apply andb_prop in Pr as [Pr ?]);
    repeat match goal with Q : negb (_ =? 0) = true |- _ => apply nz in Q end;
    repeat match type of H with (?o ≫= _) = Some _ =>
      let E := fresh "E" in destruct o eqn:E; [cbn [mbind option_bind] in H|done] end.
  all: first
  [ by eapply default_ok | by eapply copy_ok | by eapply assign_ok
  | by eapply assign_null_ok | by eapply reset_ok | by eapply assign_conv_ok | by eapply wdefault_ok
  | by eapply wfrom_ok | by eapply wcopy_ok | by eapply wassign_ok | by eapply wassign_from_ok | idtac ].
  - eapply make_ok; [done| |done|by rewrite E]. eapply room_le; [exact Hr|]. cbn [made_by]. lia.
  - eapply move_ok; [done..|]. by rewrite E0.
  - eapply assign_move_ok; [done..|]. by rewrite E0.
  - eapply reset_to_ok; [done|done|done|done|]. by rewrite E.
  - eapply swap_ok; [done..|]. by rewrite E1.
  - eapply drop_ok; [done..|]. by rewrite E.
  - eapply wmove_ok; [done..|]. by rewrite E0.
  - eapply wassign_move_ok; [done..|]. by rewrite E0.
  - eapply wswap_ok; [done..|]. by rewrite E1.
  - eapply wdrop_ok; [done..|]. by rewrite E.
  - destruct (rel_w _ _ _ _ R E) as (h & Eh & Eo & _). unfold w_lock, wk. rewrite Eh. cbn [of_option obind]. by eapply lock_ok.
  - destruct (this_member_ok _ _ _ _ _ R E E0) as (h & g' & Em & Eh & Eo). unfold s_from_this. rewrite Em. cbn [obind]. by eapply lock_ok.
  - destruct (this_member_ok _ _ _ _ _ R E E0) as (h & g' & Em & Eh & Eo). unfold w_from_this. rewrite Em. cbn [obind].
    apply new_w_inv in H as [N ->]. destruct (st_wcopy_w _ _ _ _ _ _ h (rel_st _ _ R) Eh) as (s1 & -> & S1). cbn [obind].
    destruct (st_new_wk _ _ _ _ _ w0 h S1) as (s2 & -> & S2); [by eapply rel_w_none|done|].
    assert (Ph : hp h = pts (kinds w) (hc h)) by (by eapply (rel_pw _ _ R)).
    eapply finish0; [exact S2| | | | | |]; [exact (rel_es _ _ R)| |point_tac..|zero_tac|zero_tac].
    cbn. rewrite fmap_insert, Eo. by rewrite (rel_ew _ _ R).
Qed.
