(** Every program over lists and iterators behaves as on sequences; what it shows; no leaks. *)
From stdpp Require Import gmap list.
From Coq Require Import ZArith Lia.
From Verif Require Import Base ListModel ListSpec ListProofs ListOps ListMore ListWhole.
Local Open Scope outcome_scope.

Section run.
Context {A : Type}.
Notation heap := (heap A).
Notation seq := (list (nat * A)).
Notation env := (gmap nat loc).
Implicit Types (s t : heap) (w : world A).

Definition loc_of (m : mark) : loc := match m with At k => N k | End x => H x end.
Record related (e : env) s w : Prop := {
  rl_repr : repr (seqs w) (born w) s;
  rl_iter : forall i, e !! i = loc_of <$> marks w !! i;
  rl_zero : seqs w !! 0 = None }.

Lemma find_pos k (l : seq) q : find k l = Some q -> exists d, l !! q = Some (k, d).
Proof.
  revert q. induction l as [|[i d] l IH]; intros q; [done|]. cbn [find fst]. destruct (Nat.eqb i k) eqn:E.
  - intros [= <-]. apply Nat.eqb_eq in E as ->. by exists d.
  - destruct (find k l) as [q'|]; [|done]. intros [= <-]. by apply IH.
Qed.
Lemma drop_at (l : seq) q e : l !! q = Some e -> drop q l = e :: drop (S q) l.
Proof. intros E. by rewrite (drop_S l e q E). Qed.
Lemma pos_loc x (l : seq) m q : pos x l m = Some q -> loc_of m = behind x (drop q l).
Proof.
  destruct m as [k|y]; cbn [pos].
  - intros E. apply find_pos in E as [d E]. by rewrite (drop_at _ _ _ E).
  - destruct (Nat.eqb x y) eqn:E; [|done]. apply Nat.eqb_eq in E as ->. intros [= <-]. by rewrite drop_all.
Qed.
Lemma mark_at_loc x (l : seq) q : loc_of (mark_at x l q) = behind x (drop q l).
Proof.
  unfold mark_at. destruct (l !! q) as [e|] eqn:E; [by rewrite (drop_at _ _ _ E)|].
  apply lookup_ge_None in E. by rewrite drop_ge.
Qed.

Lemma iter_ok e s w i m : related e s w -> marks w !! i = Some m -> iter e i = Ok (loc_of m).
Proof. intros R E. unfold iter. by rewrite (rl_iter _ _ _ R), E. Qed.
Lemma deref_ok e s w i x v : related e s w -> deref w i x = Some v -> exists q, iter e i = Ok q /\ value q s = Ok v.
Proof.
  intros R E. unfold deref in E. apply bind_Some in E as (l & Hl & E). apply bind_Some in E as (m & Hm & E).
  apply bind_Some in E as (q & Hq & E). apply fmap_Some in E as (f & Hf & ->).
  exists (loc_of m). split; [by apply (iter_ok _ s w)|]. rewrite (pos_loc _ _ _ _ Hq), (drop_at _ _ _ Hf), behind_cons.
  apply (repr_value (seqs w) (born w) s x (take q l) f (drop (S q) l)); [apply R|]. rewrite Hl. f_equal.
  by rewrite <- (drop_at _ _ _ Hf), take_drop.
Qed.
Lemma arg_ok e s w a v : related e s w -> arg_value w a = Some v -> read_arg e a s = Ok v.
Proof.
  intros R E. destruct a as [u|i x]; cbn in *; [by injection E as ->|].
  destruct (deref_ok _ _ _ _ _ _ R E) as (q & -> & Hq). done.
Qed.

Lemma keep_related e s s' w w' : related e s w -> marks w' = marks w -> seqs w' !! 0 = None -> repr (seqs w') (born w') s' -> related e s' w'.
Proof. intros R Hm H0 Rs. split; [done| |done]. intros i. rewrite Hm. apply R. Qed.
Lemma yield_related e s s' w w' j m q : related e s w -> q = loc_of m -> marks w' = <[j := m]> (marks w) -> seqs w' !! 0 = None ->
  repr (seqs w') (born w') s' -> related (<[j := q]> e) s' w'.
Proof.
  intros R -> Hm H0 Rs. split; [done| |done]. intros i. rewrite Hm.
  destruct (decide (i = j)) as [->|]; [by rewrite !lookup_insert|]. rewrite !lookup_insert_ne by done. apply R.
Qed.

Ltac opt := repeat match goal with
  | H : (_ ≫= _) = Some _ |- _ => let x := fresh "o" in let E := fresh "E" in apply bind_Some in H as (x & E & H)
  end.
Ltac zero R := cbn [seqs set_seq set_mark add_born]; rewrite ?lookup_insert_ne; [apply R|..]; try (intros ->; pose proof (rl_zero _ _ _ R); congruence).

Lemma step_ok e s w c w' : related e s w -> sstep w c = Some w' ->
  exists e' s', lstep true (e, s) c = Ok (e', s') /\ related e' s' w'.
Proof.
  intros R Hs. pose proof (rl_repr _ _ _ R) as Rs. pose proof (repr_made _ _ _ Rs) as Mk.
  assert (Len : forall x l, seqs w !! x = Some l -> length l <= born w) by (intros x l; apply (repr_length _ _ _ _ _ Rs)).
  destruct c; cbn [sstep lstep] in *; opt.
  - unfold new in Hs. destruct x as [|x]; [done|]. destruct (seqs w !! S x) eqn:Ex; [done|]. injection Hs as <-.
    destruct (new_ok _ _ _ _ Rs Ex) as (t & -> & Rt). cbn [obind]. eexists _, _. split; [reflexivity|].
    apply (keep_related e s t w); [done|done|zero R; done|]. cbn [seqs born add_born set_seq length number]. by rewrite Nat.add_0_r.
  - unfold new in Hs. destruct x as [|x]; [done|]. destruct (seqs w !! S x) eqn:Ex; [done|]. injection Hs as <-.
    destruct (init_ok _ _ _ _ l Rs Ex) as (t & -> & Rt). cbn [obind]. eexists _, _. split; [reflexivity|].
    apply (keep_related e s t w); [done|done|zero R; done|done].
  - unfold new in Hs. destruct x as [|x]; [done|]. destruct (seqs w !! S x) eqn:Ex; [done|]. injection Hs as <-.
    destruct (copy_ok true _ _ _ _ _ _ (fuel_of s) Rs Ex E) as (t & -> & Rt); [unfold fuel_of; specialize (Len _ _ E); lia|].
    cbn [obind]. eexists _, _. split; [reflexivity|].
    apply (keep_related e s t w); [done|done|zero R; done|]. cbn [seqs born add_born set_seq]. by rewrite fmap_length.
  - unfold new in E0. destruct x as [|x]; [done|]. destruct (seqs w !! S x) eqn:Ex; [done|]. injection E0 as <-. injection Hs as <-.
    destruct (move_ok true _ _ _ _ _ _ Rs Ex E) as (t & -> & Rt).
    cbn [obind]. eexists _, _. split; [reflexivity|].
    apply (keep_related e s t w); [done|done|zero R; done|]. cbn [seqs born add_born set_seq number length]. rewrite Nat.add_0_r.
    match goal with |- repr ?X _ _ => replace X with (<[S x := o]> (<[y := []]> (seqs w))); [done|] end.
    apply map_eq. intros z. destruct (decide (z = S x)) as [->|]; [by rewrite !lookup_insert|]. rewrite !(lookup_insert_ne _ (S x)) by done.
    destruct (decide (z = y)) as [->|]; [by rewrite !lookup_insert|]. by rewrite !lookup_insert_ne.
  - injection Hs as <-. destruct (destroy_ok _ _ _ _ _ (fuel_of s) Rs E) as (t & -> & Rt); [unfold fuel_of; specialize (Len _ _ E); lia|].
    cbn [obind]. eexists _, _. split; [reflexivity|]. apply (keep_related e s t w); [done|done| |done].
    cbn [seqs]. rewrite lookup_delete_ne; [apply R|]. intros ->. pose proof (rl_zero _ _ _ R). congruence.
  - injection Hs as <-. rewrite (arg_ok _ _ _ _ _ R E0). cbn [obind].
    destruct (emplace_back_ok _ _ _ _ _ o0 Rs E) as (t & -> & Rt). cbn [obind]. eexists _, _. split; [reflexivity|].
    apply (keep_related e s t w); [done|done|zero R|]. cbn [seqs born add_born set_seq]. by rewrite Nat.add_1_r.
  - injection Hs as <-. rewrite (arg_ok _ _ _ _ _ R E0). cbn [obind].
    destruct (emplace_front_ok _ _ _ _ _ o0 Rs E) as (t & -> & Rt). cbn [obind]. eexists _, _. split; [reflexivity|].
    apply (keep_related e s t w); [done|done|zero R|]. cbn [seqs born add_born set_seq]. by rewrite Nat.add_1_r.
  - injection Hs as <-. rewrite (iter_ok _ _ _ _ _ R E0). cbn [obind]. rewrite (arg_ok _ _ _ _ _ R E2). cbn [obind].
    rewrite (pos_loc _ _ _ _ E1). rewrite <- (take_drop o1 o) in E.
    destruct (insert_ok _ _ _ _ _ _ o2 Rs E) as (t & -> & Rt). cbn [obind]. eexists _, _. split; [reflexivity|].
    apply (yield_related e s t w _ _ (At (born w))); [done|done|done|zero R|]. cbn [seqs born add_born set_seq set_mark]. by rewrite Nat.add_1_r.
  - injection Hs as <-. rewrite (iter_ok _ _ _ _ _ R E0). cbn [obind].
    rewrite (pos_loc _ _ _ _ E1), (drop_at _ _ _ E2), behind_cons.
    assert (Ex : seqs w !! x = Some (take o1 o ++ o2 :: drop (S o1) o)) by (by rewrite <- (drop_at _ _ _ E2), take_drop).
    destruct (erase_ok true _ _ _ _ _ _ _ Rs Ex) as (t & -> & Rt). cbn [obind]. eexists _, _. split; [reflexivity|].
    apply (yield_related e s t w _ _ (mark_at x o (S o1))); [done|by rewrite mark_at_loc|done|zero R|done].
  - destruct (Nat.leb o2 o3) eqn:Le; [|done]. apply Nat.leb_le in Le. injection Hs as <-.
    rewrite (iter_ok _ _ _ _ _ R E0). cbn [obind]. rewrite (iter_ok _ _ _ _ _ R E1). cbn [obind].
    rewrite (pos_loc _ _ _ _ E2), (pos_loc _ _ _ _ E3).
    set (mid := take (o3 - o2) (drop o2 o)).
    assert (Ed : drop o2 o = mid ++ drop o3 o).
    { unfold mid. replace (drop o3 o) with (drop (o3 - o2) (drop o2 o)); [by rewrite take_drop|].
      rewrite drop_drop. f_equal. lia. }
    assert (Ex : seqs w !! x = Some (take o2 o ++ mid ++ drop o3 o)) by (by rewrite <- Ed, take_drop).
    rewrite Ed. destruct (erase_range_ok true _ _ _ _ _ _ _ (fuel_of s) Rs Ex) as (t & -> & Rt); [unfold fuel_of; lia|].
    cbn [obind]. eexists _, _. split; [reflexivity|].
    apply (yield_related e s t w _ _ o1); [done|by rewrite (pos_loc _ _ _ _ E3)|done|zero R|done].
  - injection Hs as <-. destruct (pop_back_ok true _ _ _ _ _ Rs E) as (t & -> & Rt). cbn [obind]. eexists _, _. split; [reflexivity|].
    apply (keep_related e s t w); [done|done|zero R|done].
  - injection Hs as <-. destruct (pop_front_ok true _ _ _ _ _ Rs E) as (t & -> & Rt). cbn [obind]. eexists _, _. split; [reflexivity|].
    apply (keep_related e s t w); [done|done|zero R|done].
  - injection Hs as <-. destruct (clear_ok _ _ _ _ _ (fuel_of s) Rs E) as (t & -> & Rt); [unfold fuel_of; specialize (Len _ _ E); lia|].
    cbn [obind]. eexists _, _. split; [reflexivity|].
    apply (keep_related e s t w); [done|done|zero R|done].
  - destruct (Nat.eqb x y) eqn:Exy; [done|]. apply Nat.eqb_neq in Exy. injection Hs as <-.
    destruct (swap_ok true _ _ _ _ _ _ _ Rs E E0 Exy) as (t & -> & Rt). cbn [obind]. eexists _, _. split; [reflexivity|].
    apply (keep_related e s t w); [done|done|zero R|done].
  - injection Hs as <-. destruct (assign_copy_ok _ _ _ _ _ _ _ (fuel_of s) Rs (rl_zero _ _ _ R) E E0) as (t & -> & Rt); [unfold fuel_of; lia|].
    cbn [obind]. eexists _, _. split; [reflexivity|].
    apply (keep_related e s t w); [done|done|zero R|done].
  - injection Hs as <-. destruct (assign_move_ok _ _ _ _ _ _ _ (fuel_of s) Rs (rl_zero _ _ _ R) E E0) as (t & -> & Rt); [unfold fuel_of; lia|].
    cbn [obind]. eexists _, _. split; [reflexivity|].
    apply (keep_related e s t w); [done|done|zero R|done].
  - injection Hs as <-. rewrite (repr_begin true _ _ _ _ _ Rs E). cbn [obind]. eexists _, _. split; [reflexivity|].
    apply (yield_related e s s w _ _ (mark_at x o 0)); [done|by rewrite mark_at_loc|done|apply R|done].
  - injection Hs as <-. rewrite (repr_size _ _ _ _ _ Rs E). cbn [obind]. eexists _, _. split; [reflexivity|].
    apply (yield_related e s s w _ _ (End x)); [done|done|done|apply R|done].
  - injection Hs as <-. rewrite (iter_ok _ _ _ _ _ R E0). cbn [obind]. rewrite (pos_loc _ _ _ _ E1), (drop_at _ _ _ E2), behind_cons.
    assert (Ex : seqs w !! x = Some (take o1 o ++ o2 :: drop (S o1) o)) by (by rewrite <- (drop_at _ _ _ E2), take_drop).
    rewrite (repr_next true _ _ _ _ _ _ _ Rs Ex). cbn [obind]. eexists _, _. split; [reflexivity|].
    apply (yield_related e s s w _ _ (mark_at x o (S o1))); [done|by rewrite mark_at_loc|done|apply R|done].
  - destruct o1 as [|q]; [done|]. injection Hs as <-. rewrite (iter_ok _ _ _ _ _ R E0). cbn [obind]. rewrite (pos_loc _ _ _ _ E1).
    assert (Ex : seqs w !! x = Some (take (S q) o ++ drop (S q) o)) by (by rewrite take_drop).
    rewrite (repr_prev true _ _ _ _ _ _ Rs Ex). cbn [obind]. eexists _, _. split; [reflexivity|].
    apply (yield_related e s s w _ _ (mark_at x o q)); [done| |done|apply R|done].
    assert (Hq : q < length o).
    { destruct o0 as [k|y]; cbn [pos] in E1; [apply find_pos in E1 as [d E1]; apply lookup_lt_Some in E1; lia|].
      destruct (Nat.eqb x y); [|done]. injection E1 as E1. lia. }
    destruct (lookup_lt_is_Some_2 o q Hq) as [f Hq']. rewrite (take_S_r _ _ _ Hq'), before_snoc. unfold mark_at. by rewrite Hq'.
  - injection Hs as <-. rewrite (iter_ok _ _ _ _ _ R E0). cbn [obind]. rewrite (pos_loc _ _ _ _ E1), (drop_at _ _ _ E2), behind_cons.
    assert (Ex : seqs w !! x = Some (take o1 o ++ o2 :: drop (S o1) o)) by (by rewrite <- (drop_at _ _ _ E2), take_drop).
    destruct (write_ok _ _ _ _ _ _ _ v Rs Ex) as (t & -> & Rt). cbn [obind]. eexists _, _. split; [reflexivity|].
    apply (keep_related e s t w); [done|done|zero R|]. cbn [seqs born set_seq].
    rewrite (insert_take_drop o o1 (fst o2, v)); [done|]. exact (lookup_lt_Some _ _ _ E2).
Qed.

Lemma repr0 : repr (A := A) ∅ 0 heap0.
Proof.
  exists (fun _ => None), (fun _ => None), (fun _ => None), ∅. split.
  - split; try done; intros z; unfold nxl, pvl, vll; cbn [heap0 cells]; by rewrite lookup_empty.
  - split; try (intros; match goal with H : ∅ !! _ = Some _ |- _ => by rewrite lookup_empty in H end).
    + intros i [? [=]].
    + done.
    + intros x _. apply lookup_empty.
Qed.
Lemma related0 : related ∅ heap0 (world0 (A := A)).
Proof. split; [exact repr0|intros i; by rewrite !lookup_empty|apply lookup_empty]. Qed.

Lemma run_ok cs : forall e s w w', related e s w -> srun w cs = Some w' ->
  exists e' s', lrun true (e, s) cs = Ok (e', s') /\ related e' s' w'.
Proof.
  induction cs as [|c cs IH]; intros e s w w' R; cbn [srun lrun].
  - intros [= <-]. eauto.
  - intros E. apply bind_Some in E as (w1 & E1 & E2). destruct (step_ok _ _ _ _ _ R E1) as (e1 & s1 & -> & R1).
    cbn [obind]. exact (IH _ _ _ _ R1 E2).
Qed.

(** What is seen. *)
Lemma walk_ok lax W k s x l2 : repr W k s -> forall l1 fuel, W !! x = Some (l1 ++ l2) -> length l2 <= fuel ->
  walk lax fuel (behind x l2) (H x) s = Ok (snd <$> l2).
Proof.
  intros R. induction l2 as [|e l2 IH]; intros l1 fuel Hx Hf.
  - change (behind x []) with (H x). destruct fuel; cbn [walk]; by rewrite decide_True.
  - destruct fuel as [|fuel]; [cbn in Hf; lia|]. rewrite behind_cons. cbn [walk]. rewrite decide_False by done.
    rewrite (repr_value _ _ _ _ _ _ _ R Hx). cbn [obind]. rewrite (repr_next lax _ _ _ _ _ _ _ R Hx). cbn [obind].
    rewrite (IH (l1 ++ [e]) fuel); [done|rewrite Hx; f_equal; by rewrite <- app_assoc|cbn in Hf; lia].
Qed.
Lemma behind_inj x (l l1 l2 : seq) : NoDup (ids l) -> l = l1 ++ l2 -> behind x l2 = behind x l -> l1 = [].
Proof.
  intros ND -> E. destruct l1 as [|e l1]; [done|exfalso]. cbn [app] in E. rewrite behind_cons in E.
  destruct l2 as [|f l2]; [done|]. rewrite behind_cons in E. injection E as E. cbn in ND. apply NoDup_cons in ND as [ND _].
  apply ND. fold (ids (l1 ++ f :: l2)). rewrite ids_app. apply elem_of_app. right. unfold ids. cbn. rewrite E. apply elem_of_list_here.
Qed.
Lemma walk_back_ok lax W k s x l1 : repr W k s -> forall l2 fuel, W !! x = Some (l1 ++ l2) -> NoDup (ids (l1 ++ l2)) -> length l1 <= fuel ->
  walk_back lax fuel (behind x l2) (behind x (l1 ++ l2)) s = Ok (reverse (snd <$> l1)).
Proof.
  intros R. induction l1 as [|e l1 IH] using rev_ind; intros l2 fuel Hx ND Hf.
  - cbn [app]. destruct fuel; cbn [walk_back]; by rewrite decide_True.
  - rewrite app_length in Hf. cbn in Hf. destruct fuel as [|fuel]; [lia|]. cbn [walk_back].
    rewrite decide_False.
    2:{ intros E. apply (behind_inj x ((l1 ++ [e]) ++ l2) (l1 ++ [e]) l2) in E; [|done|done]. by destruct l1. }
    rewrite (repr_prev lax _ _ _ _ _ _ R Hx), before_snoc. cbn [obind].
    assert (Hx' : W !! x = Some (l1 ++ e :: l2)) by (rewrite Hx; f_equal; by rewrite <- app_assoc).
    rewrite (repr_value _ _ _ _ _ _ _ R Hx'). cbn [obind].
    assert (Ea : (l1 ++ [e]) ++ l2 = l1 ++ e :: l2) by (by rewrite <- app_assoc). rewrite Ea in *.
    change (N (fst e)) with (behind x (e :: l2)). rewrite (IH (e :: l2) fuel Hx' ND ltac:(lia)). cbn [obind].
    f_equal. rewrite fmap_app, reverse_app. done.
Qed.

Lemma shows_ok lax W k s x l : repr W k s -> W !! x = Some l -> shows lax s x (snd <$> l).
Proof.
  intros R Hx. split; [rewrite fmap_length; exact (repr_size _ _ _ _ _ R Hx)|]. split; [|split].
  - intros fuel Hf. rewrite fmap_length in Hf. unfold forward, backward. rewrite (repr_begin lax _ _ _ _ _ R Hx). cbn [obind].
    split; [exact (walk_ok lax W k s x l R [] fuel Hx Hf)|].
    assert (Hx' : W !! x = Some (l ++ [])) by (by rewrite app_nil_r).
    assert (ND : NoDup (ids l)) by (destruct R as (n & p & v & g & Sn & R); exact (r_nodup _ _ _ _ _ _ R _ _ Hx)).
    rewrite <- (app_nil_r l) in ND. pose proof (walk_back_ok lax W k s x l R [] fuel Hx' ND Hf) as Q. rewrite app_nil_r in Q. exact Q.
  - intros d Hd. unfold front. rewrite (repr_begin lax _ _ _ _ _ R Hx). cbn [obind]. destruct l as [|e l]; [done|].
    injection Hd as <-. rewrite behind_cons. exact (repr_value _ _ _ _ [] _ _ R Hx).
  - intros d Hd. unfold back. destruct l as [|e l _] using rev_ind; [done|]. rewrite fmap_app, last_app in Hd. injection Hd as <-.
    assert (Hx' : W !! x = Some ((l ++ [e]) ++ [])) by (by rewrite app_nil_r).
    change (list_end x) with (behind x (@nil (nat * A))). rewrite (repr_prev lax _ _ _ _ _ _ R Hx'), before_snoc. cbn [obind].
    exact (repr_value _ _ _ _ _ _ _ R Hx).
Qed.

(** Exactly the nodes of the sequences, and the sentinels, exist. *)
Lemma repr_cells W k s i : repr W k s -> is_Some (cells s !! N i) <-> exists x l, W !! x = Some l /\ i ∈ ids l.
Proof.
  intros (n & p & v & g & Sn & R).
  assert (E : is_Some (cells s !! N i) <-> is_Some (v (N i))).
  { rewrite <- (see_vl _ _ _ _ _ _ Sn). unfold vll. by rewrite fmap_is_Some. }
  rewrite E. split; [apply (r_node _ _ _ _ _ _ R)|]. intros (x & l & Hx & Hi).
  apply (links_in _ _ _ _ _ _ _ (r_rep _ _ _ _ _ _ R _ _ Hx)). apply elem_of_list_further. by apply locs_in.
Qed.
Lemma repr_empty_cells k s : repr ∅ k s -> cells s = ∅ /\ sizes s = ∅.
Proof.
  intros R. split.
  - apply map_empty. intros [x|i].
    + destruct R as (n & p & v & g & Sn & R). pose proof (r_head _ _ _ _ _ _ R x (lookup_empty x)) as E.
      rewrite <- (see_vl _ _ _ _ _ _ Sn) in E. unfold vll in E. by destruct (cells s !! H x).
    + apply eq_None_not_Some. intros Hi. apply (repr_cells _ _ _ _ R) in Hi as (x & l & Hx & _). by rewrite lookup_empty in Hx.
  - destruct R as (n & p & v & g & Sn & R). rewrite (see_sizes _ _ _ _ _ _ Sn). apply map_empty. intros x.
    exact (r_size _ _ _ _ _ _ R x (lookup_empty x)).
Qed.

(** operator== *)
Lemma eq_loop_ok lax (eqb : A -> A -> bool) W k s x y b2 : repr W k s -> forall a2 a1 b1 (i n : Z) fuel,
  W !! x = Some (a1 ++ a2) -> W !! y = Some (b1 ++ b2) -> length a2 = length b2 ->
  (0 <= i)%Z -> n = (i + Z.of_nat (length a2))%Z -> (n < 2 ^ 31)%Z -> length a2 < fuel ->
  eq_loop lax eqb fuel i n (behind x a2) (behind y b2) s = Ok (forallb (fun q => eqb (fst q) (snd q)) (zip (snd <$> a2) (snd <$> b2))).
Proof.
  intros R. induction b2 as [|f b2 IH]; intros a2 a1 b1 i n fuel Hx Hy Hl Hi Hn Hb Hf; destruct a2 as [|e a2]; try done;
    (destruct fuel as [|fuel]; [cbn in Hf; lia|]); cbn [eq_loop].
  - replace (i <? n)%Z with false; [done|]. symmetry. apply Z.ltb_ge. cbn in Hn. lia.
  - cbn [length] in Hn. replace (i <? n)%Z with true by (symmetry; apply Z.ltb_lt; lia). rewrite !behind_cons.
    rewrite (repr_value _ _ _ _ _ _ _ R Hx), (repr_value _ _ _ _ _ _ _ R Hy). cbn [obind].
    change (zip (snd <$> e :: a2) (snd <$> f :: b2)) with ((snd e, snd f) :: zip (snd <$> a2) (snd <$> b2)). cbn [forallb fst snd].
    destruct (eqb (snd e) (snd f)); cbn [negb andb]; [|done].
    rewrite (repr_next lax _ _ _ _ _ _ _ R Hx), (repr_next lax _ _ _ _ _ _ _ R Hy). cbn [obind].
    replace (i + 1 <? 2 ^ 31)%Z with true by (symmetry; apply Z.ltb_lt; lia).
    apply (IH a2 (a1 ++ [e]) (b1 ++ [f])).
    + rewrite Hx. f_equal. by rewrite <- app_assoc.
    + rewrite Hy. f_equal. by rewrite <- app_assoc.
    + cbn in Hl. lia.
    + lia.
    + lia.
    + lia.
    + cbn in Hf. lia.
Qed.
Lemma list_eq_ok lax (eqb : A -> A -> bool) W k s x y l m fuel : repr W k s -> W !! x = Some l -> W !! y = Some m ->
  (Z.of_nat (length l) < 2 ^ 31)%Z -> length l < fuel ->
  list_eq lax eqb fuel x y s = Ok (Nat.eqb (length l) (length m) && forallb (fun q => eqb (fst q) (snd q)) (zip (snd <$> l) (snd <$> m))).
Proof.
  intros R Hx Hy Hb Hf. unfold list_eq. rewrite (repr_size _ _ _ _ _ R Hx), (repr_size _ _ _ _ _ R Hy). cbn [obind].
  destruct (Nat.eqb (length l) (length m)) eqn:E.
  - apply Nat.eqb_eq in E. rewrite E, Z.eqb_refl. cbn [negb andb]. rewrite (repr_begin lax _ _ _ _ _ R Hx), (repr_begin lax _ _ _ _ _ R Hy). cbn [obind].
    rewrite <- E. apply (eq_loop_ok lax eqb _ _ s x y m R l [] []); try done; lia.
  - apply Nat.eqb_neq in E. replace (Z.of_nat (length l) =? Z.of_nat (length m))%Z with false by (symmetry; apply Z.eqb_neq; lia). done.
Qed.
End run.
