(** Every program over lists and iterators does what [xrun] says, or is undefined. *)
From stdpp Require Import gmap list.
From Coq Require Import ZArith Lia.
From Verif Require Import Base ListModel ListSpec ListProofs ListOps ListMore ListWhole ListRun ListExactSpec.
Local Open Scope outcome_scope.

Section exact.
Context {A : Type}.
Notation heap := (heap A).
Notation seq := (list (nat * A)).
Notation env := (gmap nat loc).
Implicit Types (s t : heap) (w : world A).

Definition aged w : Prop := forall i k, marks w !! i = Some (At k) -> k < born w.
Record xrelated (e : env) s w : Prop := { xr_rel : related e s w; xr_aged : aged w }.

(** Missing cells. *)
Lemma gone_get (a : loc) s : cells s !! a = None -> get a s = UB.
Proof. intros E. unfold get. by rewrite E. Qed.
Lemma gone_next lax (a : loc) s : cells s !! a = None -> next lax a s = UB.
Proof. intros E. unfold next, get_next. by rewrite (gone_get _ _ E). Qed.
Lemma gone_prev lax (a : loc) s : cells s !! a = None -> prev lax a s = UB.
Proof. intros E. unfold prev, get_prv. by rewrite (gone_get _ _ E). Qed.
Lemma gone_value (a : loc) s : cells s !! a = None -> value a s = UB.
Proof. intros E. unfold value. by rewrite (gone_get _ _ E). Qed.
Lemma gone_set_value (a : loc) v s : cells s !! a = None -> set_value a v s = UB.
Proof. intros E. unfold set_value. by rewrite (gone_get _ _ E). Qed.
Lemma gone_link_prv (a b : loc) s : cells s !! a = None -> link_prv a b s = UB.
Proof. intros E. unfold link_prv. by rewrite (gone_get _ _ E). Qed.
Lemma gone_link_next (a b : loc) s : cells s !! a = None -> link_next a b s = UB.
Proof. intros E. unfold link_next. by rewrite (gone_get _ _ E). Qed.
Lemma gone_erase lax x (a : loc) s : cells s !! a = None -> erase lax x a s = UB.
Proof. intros E. unfold erase. by rewrite (gone_next _ _ _ E). Qed.
Lemma gone_insert x (a : loc) v s : cells s !! a = None -> a <> N (made s) -> insert x a v s = UB.
Proof.
  intros E Hn. unfold insert, create_node. rewrite gone_link_prv; [done|]. cbn [cells]. by rewrite lookup_insert_ne.
Qed.

Lemma vll_none s (a : loc) : vll s a = None -> cells s !! a = None.
Proof. unfold vll. by destruct (cells s !! a). Qed.
Lemma no_list W k s x : repr W k s -> W !! x = None -> cells s !! H x = None /\ sizes s !! x = None.
Proof.
  intros (n & p & v & g & Sn & R) Hx. split.
  - apply vll_none. rewrite (see_vl _ _ _ _ _ _ Sn). exact (r_head _ _ _ _ _ _ R x Hx).
  - rewrite (see_sizes _ _ _ _ _ _ Sn). exact (r_size _ _ _ _ _ _ R x Hx).
Qed.
Lemma head_value W k s x l : repr W k s -> W !! x = Some l -> value (H x) s = UB /\ forall v, set_value (H x) v s = UB.
Proof.
  intros (n & p & v & g & Sn & R) Hx. pose proof (lr_head _ _ _ _ _ _ (r_rep _ _ _ _ _ _ R _ _ Hx)) as E.
  rewrite <- (see_vl _ _ _ _ _ _ Sn) in E. unfold vll in E. unfold value, set_value, get.
  destruct (cells s !! H x) as [c|]; [|done]. cbn in *. injection E as ->. done.
Qed.

(** Nothing but the loops runs out of fuel. *)
Lemma get_cases (a : loc) s : get a s = UB \/ exists c, get a s = Ok c.
Proof. unfold get. destruct (cells s !! a); cbn; eauto. Qed.
Lemma set_nx_cases (a : loc) o s : set_nx a o s = UB \/ exists t, set_nx a o s = Ok t.
Proof. unfold set_nx. destruct (get_cases a s) as [->|[c ->]]; cbn; eauto. Qed.
Lemma set_pv_cases (a : loc) o s : set_pv a o s = UB \/ exists t, set_pv a o s = Ok t.
Proof. unfold set_pv. destruct (get_cases a s) as [->|[c ->]]; cbn; eauto. Qed.
Lemma next_cases lax (a : loc) s : next lax a s = UB \/ exists b, next lax a s = Ok b.
Proof.
  unfold next, get_next, on_null. destruct (get_cases a s) as [->|[c ->]]; cbn; eauto. destruct (nx c); cbn; eauto.
  destruct lax; cbn; eauto.
Qed.
Lemma unlink_cases (a : loc) s : unlink a s = UB \/ exists t, unlink a s = Ok t.
Proof.
  unfold unlink. destruct (get_cases a s) as [->|[c ->]]; cbn; [auto|].
  assert (E : match nx c with Some n => set_pv n (pv c) s | None => Ok s end = UB \/
    exists t, match nx c with Some n => set_pv n (pv c) s | None => Ok s end = Ok t) by (destruct (nx c); [apply set_pv_cases|eauto]).
  destruct E as [->|[t ->]]; cbn; [auto|]. destruct (get_cases a t) as [->|[c' ->]]; cbn; [auto|].
  assert (E : match pv c' with Some p => set_nx p (nx c') t | None => Ok t end = UB \/
    exists u, match pv c' with Some p => set_nx p (nx c') t | None => Ok t end = Ok u) by (destruct (pv c'); [apply set_nx_cases|eauto]).
  destruct E as [->|[u ->]]; cbn; [auto|]. destruct (set_nx_cases a None u) as [->|[u' ->]]; cbn; [auto|]. apply set_pv_cases.
Qed.
Lemma set_size_cases x n s : set_size x n s = UB \/ exists t, set_size x n s = Ok t.
Proof. unfold set_size, size. destruct (sizes s !! x); cbn; eauto. Qed.

Lemma erase_end lax x y s : erase lax x (H y) s = UB.
Proof.
  unfold erase. destruct (next_cases lax (H y) s) as [->|[b ->]]; cbn; [done|].
  destruct (unlink_cases (H y) s) as [->|[t ->]]; cbn; [done|].
  destruct (size x t) as [n| |] eqn:E; cbn; [|done|].
  - by destruct (set_size_cases x (n - 1) t) as [->|[u ->]].
  - unfold size in E. by destruct (sizes t !! x).
Qed.

(** A range that misses its end runs into the sentinel. *)
Lemma erase_loop_miss lax x last (mid : seq) : forall s n p (v : loc -> option (option A)) g k c fuel,
  sees s n p v g k -> NoDup (ids mid) -> last ∉ locs mid -> last <> H x ->
  (forall m1 e m2, mid = m1 ++ e :: m2 -> n (N (fst e)) = Some (Some (behind x m2))) ->
  (forall z, z ∈ locs mid -> is_Some (v z)) -> length mid < fuel ->
  erase_loop lax fuel (behind x mid) last c s = UB.
Proof.
  induction mid as [|e mid IH]; intros s n p v g k c fuel Sn ND Hl Hx Hn Hv Hf.
  - destruct fuel; [cbn in Hf; lia|]. change (behind x []) with (H x). cbn [erase_loop]. rewrite decide_False by done.
    by destruct (next_cases lax (H x) s) as [->|[b ->]].
  - destruct fuel as [|fuel]; [cbn in Hf; lia|]. cbn [erase_loop]. rewrite behind_cons.
    rewrite locs_cons in Hl. apply not_elem_of_cons in Hl as [Hl1 Hl2].
    rewrite decide_False by done. rewrite (next_ok lax s _ _ _ _ _ _ _ Sn (Hn [] e mid eq_refl)). cbn [obind].
    destruct (destory_ok s (fst e) _ _ _ _ _ Sn) as (u & E & Su); [apply Hv; rewrite locs_cons; apply elem_of_list_here|].
    rewrite E. cbn [obind]. unfold ids in ND. cbn in ND. apply NoDup_cons in ND as [ND1 ND2].
    assert (Ne : N (fst e) ∉ locs mid) by (rewrite locs_in; done).
    apply (IH u _ _ _ _ _ (c + 1)%Z fuel Su); try done.
    + intros m1 f m2 ->. rewrite upd_ne; [by apply (Hn (e :: m1))|]. intros [= E']. apply ND1. apply elem_of_list_fmap.
      exists f. split; [done|]. apply elem_of_app. right. apply elem_of_list_here.
    + intros z Hz. rewrite upd_ne; [apply Hv; rewrite locs_cons; by apply elem_of_list_further|]. intros ->. done.
    + cbn in Hf. lia.
Qed.
Lemma erase_range_miss lax W k s x l1 mid last fuel : repr W k s -> W !! x = Some (l1 ++ mid) -> k < fuel ->
  last ∉ locs mid -> last <> H x -> erase_range lax fuel x (behind x mid) last s = UB.
Proof.
  intros (n & p & v & g & Sn & R) Hx Hf Hl Hlx. pose proof (r_nodup _ _ _ _ _ _ R _ _ Hx) as ND.
  destruct (around _ _ _ _ _ _ _ _ _ R Hx) as (A1 & A2 & A3 & A4 & A5).
  pose proof (rel_length _ _ _ _ _ _ _ _ R Hx) as Len. rewrite !app_length in Len.
  assert (NDm : NoDup (ids mid)) by (rewrite !ids_app in ND; by apply NoDup_app in ND as (_ & _ & ?)).
  pose proof (before_not_back x _ _ ND) as Bm.
  unfold erase_range. rewrite (prev_ok lax s _ _ _ _ _ _ _ Sn A2). cbn [obind].
  destruct (unlink_next_ok s (before x l1) (behind x mid) _ _ _ _ _ Sn A1 A3 A4) as (s1 & E1 & S1).
  rewrite E1. cbn [obind]. rewrite (erase_loop_miss lax x last mid s1 _ _ _ _ _ 0 fuel S1); try done.
  - intros m1 e m2 ->. rewrite upd_ne.
    + assert (Hx2 : W !! x = Some ((l1 ++ m1 ++ [e]) ++ m2)) by (rewrite Hx; f_equal; rewrite <- !app_assoc; done).
      destruct (around _ _ _ _ _ _ _ _ _ R Hx2) as (C1 & _). rewrite app_assoc, before_snoc in C1. done.
    + intros E. apply Bm. rewrite <- E. rewrite locs_app, locs_cons. apply elem_of_app. right. apply elem_of_list_here.
  - intros z Hz. apply (links_in _ _ _ _ _ _ z (r_rep _ _ _ _ _ _ R _ _ Hx)). rewrite !locs_app. apply elem_of_cons. right.
    apply elem_of_app. auto.
  - lia.
Qed.

(** Where an iterator stands. *)
Lemma here_ok w i x m y l p : here w i x = true -> marks w !! i = Some m -> seqs w !! y = Some l -> pos y l m = Some p -> y = x.
Proof.
  unfold here. intros Hh Em Hy Hp. rewrite Em in Hh. rewrite forallb_forall in Hh. specialize (Hh (y, l)). cbn [fst snd] in Hh. rewrite Hp in Hh.
  apply Nat.eqb_eq, Hh. apply elem_of_list_In. by apply elem_of_map_to_list.
Qed.
Lemma find_none i (l : seq) : i ∈ ids l -> find i l <> None.
Proof.
  induction l as [|[j d] l IH]; cbn; intros Hi; [by apply elem_of_nil in Hi|]. destruct (Nat.eqb j i) eqn:E; [done|].
  apply elem_of_cons in Hi as [->|Hi]; [by rewrite Nat.eqb_refl in E|]. destruct (find i l); [done|]. by specialize (IH Hi).
Qed.
Lemma stray e s w m : related e s w -> (forall y l, seqs w !! y = Some l -> pos y l m = None) -> cells s !! loc_of m = None.
Proof.
  intros R Hs. destruct m as [k|y]; cbn [loc_of].
  - apply eq_None_not_Some. intros Hk. apply (repr_cells _ _ _ _ (rl_repr _ _ _ R)) in Hk as (x & l & Hx & Hk).
    specialize (Hs x l Hx). cbn in Hs. by apply (find_none _ _ Hk).
  - destruct (seqs w !! y) as [l|] eqn:Hy.
    + specialize (Hs y l Hy). cbn in Hs. by rewrite Nat.eqb_refl in Hs.
    + exact (proj1 (no_list _ _ _ _ (rl_repr _ _ _ R) Hy)).
Qed.
Lemma use_cases e s w i x : related e s w -> here w i x = true ->
  (marks w !! i = None /\ iter e i = UB) \/
  exists m, marks w !! i = Some m /\ iter e i = Ok (loc_of m) /\
    (((forall l, seqs w !! x = Some l -> pos x l m = None) /\ cells s !! loc_of m = None) \/
     exists l p, seqs w !! x = Some l /\ pos x l m = Some p).
Proof.
  intros R Hh. destruct (marks w !! i) as [m|] eqn:Em.
  2:{ left. split; [done|]. unfold iter. by rewrite (rl_iter _ _ _ R), Em. }
  right. exists m. split; [done|]. split; [by apply (iter_ok _ s w)|].
  assert (D : (exists l p, seqs w !! x = Some l /\ pos x l m = Some p) \/ forall l, seqs w !! x = Some l -> pos x l m = None).
  { destruct (seqs w !! x) as [l|]; [|by right]. destruct (pos x l m) as [p|] eqn:Ep; [left; eauto|right]. by intros ? [= <-]. }
  destruct D as [D|D]; [auto|]. left. split; [done|]. apply (stray e s w); [done|]. intros y l Hy.
  destruct (pos y l m) as [p|] eqn:Ep; [|done]. assert (y = x) as -> by exact (here_ok _ _ _ _ _ _ _ Hh Em Hy Ep).
  rewrite (D l Hy) in Ep. done.
Qed.
Lemma pos_end x (l : seq) m p : pos x l m = Some p -> l !! p = None -> m = End x /\ p = length l.
Proof.
  destruct m as [k|y]; cbn [pos].
  - intros E. apply find_pos in E as [d E]. by rewrite E.
  - destruct (Nat.eqb x y) eqn:E; [|done]. apply Nat.eqb_eq in E as ->. by intros [= <-].
Qed.
Lemma pos_le x (l : seq) m p : pos x l m = Some p -> p <= length l.
Proof.
  destruct m as [k|y]; cbn [pos].
  - intros E. apply find_pos in E as [d E]. apply lookup_lt_Some in E. lia.
  - destruct (Nat.eqb x y); [|done]. intros [= <-]. lia.
Qed.
Lemma arg_wrong e s w a : related e s w -> arg_here w a = true -> arg_value w a = None -> read_arg e a s = UB.
Proof.
  intros R Hh Ha. destruct a as [v|i x]; cbn in *; [done|]. unfold deref in Ha.
  destruct (use_cases e s w i x R Hh) as [(_ & ->)|(m & Em & -> & [(_ & Hg)|(l & p & Hx & Hp)])]; cbn [obind]; [done|by apply gone_value|].
  rewrite Hx in Ha. cbn in Ha. rewrite Em in Ha. cbn in Ha. rewrite Hp in Ha. cbn in Ha.
  destruct (l !! p) eqn:El; [done|]. destruct (pos_end _ _ _ _ Hp El) as (-> & _).
  exact (proj1 (head_value _ _ _ _ _ (rl_repr _ _ _ R) Hx)).
Qed.
Lemma arg_cases e s w a : related e s w -> arg_here w a = true -> read_arg e a s = UB \/ exists v, arg_value w a = Some v /\ read_arg e a s = Ok v.
Proof.
  intros R Hh. destruct (arg_value w a) as [v|] eqn:E; [right; exists v; split; [done|by apply (arg_ok _ _ w)]|left; by apply (arg_wrong _ _ w)].
Qed.

(** Steps that [xstep] leaves undefined. *)
Lemma step_wrong e s w c : xrelated e s w -> formed w c = true -> xstep w c = None -> lstep true (e, s) c = UB.
Proof.
  intros [R Ag] F Hs. pose proof (rl_repr _ _ _ R) as Rs. pose proof (repr_made _ _ _ Rs) as Mk.
  assert (Nl : forall x, seqs w !! x = None -> cells s !! H x = None /\ sizes s !! x = None) by (intros x; apply (no_list _ _ _ _ Rs)).
  assert (Nw : forall x l, nonzero x = true -> new x l w = None -> exists k, seqs w !! x = Some k).
  { intros x l Hx Hn. destruct x; [done|]. unfold new in Hn. destruct (seqs w !! S x); [eauto|done]. }
  assert (Ex : forall x l, seqs w !! x = Some l -> list_new x s = UB).
  { intros x l Hx. unfold list_new. pose proof (repr_size _ _ _ _ _ Rs Hx) as E. unfold size in E. by destruct (sizes s !! x). }
  assert (Made : forall i m, marks w !! i = Some m -> loc_of m <> N (made s)).
  { intros i m Hm. destruct m as [k|y]; [|done]. specialize (Ag i k Hm). cbn. intros [= E]. lia. }
  destruct c; cbn [xstep sstep lstep formed] in *;
    repeat match goal with F : (_ && _) = true |- _ => let G := fresh "F" in apply andb_prop in F as [F G] end.
  - destruct (Nw _ _ F Hs) as [k Hk]. by rewrite (Ex _ _ Hk).
  - destruct (Nw _ _ F Hs) as [k Hk]. unfold list_init. by rewrite (Ex _ _ Hk).
  - unfold list_copy. destruct (seqs w !! y) as [l|] eqn:Ey; cbn in Hs.
    + destruct (Nw _ _ F Hs) as [k Hk]. by rewrite (Ex _ _ Hk).
    + destruct (seqs w !! x) as [k|] eqn:Hx; [by rewrite (Ex _ _ Hx)|].
      destruct (new_ok _ _ _ _ Rs Hx) as (t & -> & Rt). cbn [obind]. unfold list_begin.
      rewrite gone_next; [done|]. apply (no_list _ _ _ _ Rt). rewrite lookup_insert_ne; [done|]. intros ->. by rewrite Nat.eqb_refl in *.
  - unfold list_move. destruct (seqs w !! y) as [l|] eqn:Ey; cbn in Hs.
    + destruct (new x [] w) eqn:En; [done|]. destruct (Nw _ _ F En) as [k Hk]. by rewrite (Ex _ _ Hk).
    + destruct (seqs w !! x) as [k|] eqn:Hx; [by rewrite (Ex _ _ Hx)|].
      destruct (new_ok _ _ _ _ Rs Hx) as (t & -> & Rt). cbn [obind]. unfold swap.
      destruct (next_cases true (H x) t) as [->|[b ->]]; [done|]. cbn [obind].
      assert (G : cells t !! H y = None) by (apply (no_list _ _ _ _ Rt); rewrite lookup_insert_ne; [done|]; intros ->; by rewrite Nat.eqb_refl in *).
      destruct (prev true (H x) t) as [b'| |] eqn:Ep; cbn [obind]; [by rewrite (gone_next _ _ _ G)|done|].
      exfalso. unfold prev, get_prv, on_null in Ep. destruct (get_cases (H x) t) as [E|[c E]]; rewrite E in Ep; cbn in Ep; [done|].
      by destruct (pv c).
  - destruct (seqs w !! x) as [l|] eqn:Hx; [done|]. unfold list_destroy, clear, empty, size. by rewrite (proj2 (Nl _ Hx)).
  - destruct (arg_cases e s w a R) as [->|(v & Ev & ->)]; [done|done|]. cbn [obind].
    destruct (seqs w !! x) as [l|] eqn:Hx; cbn in Hs; [by rewrite Ev in Hs|]. unfold emplace_back, create_node.
    rewrite gone_link_prv; [done|]. cbn [cells]. rewrite lookup_insert_ne by done. apply (Nl _ Hx).
  - destruct (arg_cases e s w a R) as [->|(v & Ev & ->)]; [done|done|]. cbn [obind].
    destruct (seqs w !! x) as [l|] eqn:Hx; cbn in Hs; [by rewrite Ev in Hs|]. unfold emplace_front, create_node.
    rewrite gone_link_next; [done|]. cbn [cells]. rewrite lookup_insert_ne by done. apply (Nl _ Hx).
  - destruct (use_cases e s w i x R F) as [(_ & ->)|(m & Em & -> & D)]; [done|]. cbn [obind].
    destruct (arg_cases e s w a R) as [->|(v & Ev & ->)]; [done|done|]. cbn [obind].
    destruct D as [(_ & Hg)|(l & p & Hx & Hp)]; [rewrite gone_insert; [done|done|by apply (Made i)]|].
    rewrite Hx in Hs. cbn in Hs. rewrite Em in Hs. cbn in Hs. rewrite Hp in Hs. cbn in Hs. by rewrite Ev in Hs.
  - destruct (use_cases e s w i x R F) as [(_ & ->)|(m & Em & -> & [(_ & Hg)|(l & p & Hx & Hp)])]; cbn [obind]; [done|by rewrite (gone_erase _ _ _ _ Hg)|].
    rewrite Hx in Hs. cbn in Hs. rewrite Em in Hs. cbn in Hs. rewrite Hp in Hs. cbn in Hs.
    destruct (l !! p) eqn:El; [done|]. destruct (pos_end _ _ _ _ Hp El) as (-> & _). cbn [loc_of]. by rewrite erase_end.
  - destruct (use_cases e s w i x R F) as [(_ & ->)|(m & Em & -> & D)]; [done|]. cbn [obind].
    destruct (use_cases e s w k x R) as [(_ & ->)|(m' & Em' & -> & D')]; [done|done|]. cbn [obind].
    destruct D as [(_ & Hg)|(l & p & Hx & Hp)]; [unfold erase_range; by rewrite (gone_prev _ _ _ Hg)|].
    rewrite Hx in Hs. cbn in Hs. rewrite Em in Hs. cbn in Hs. rewrite Em' in Hs. cbn in Hs. rewrite Hp in Hs. cbn in Hs.
    rewrite (pos_loc _ _ _ _ Hp).
    assert (Hx' : seqs w !! x = Some (take p l ++ drop p l)) by (by rewrite take_drop).
    assert (Hl : loc_of m' ∉ locs (drop p l) /\ loc_of m' <> H x).
    { destruct m' as [jj|y]; cbn [loc_of].
      - split; [|done]. rewrite locs_in. intros Hj. destruct (pos x l (At jj)) as [q|] eqn:Eq.
        + cbn in Hs. destruct (Nat.leb p q) eqn:Le; [done|]. apply Nat.leb_gt in Le.
          cbn [pos] in Eq. apply find_pos in Eq as [d Eq].
          destruct Rs as (n & pp & v & g & Sn & RR). pose proof (r_nodup _ _ _ _ _ _ RR _ _ Hx) as RN.
          rewrite <- (take_drop p l), ids_app in RN. apply NoDup_app in RN as (_ & RN & _). apply (RN jj); [|done].
          apply elem_of_list_fmap. exists (jj, d). split; [done|]. apply elem_of_list_lookup. exists q. by rewrite lookup_take.
        + cbn [pos] in Eq. apply (find_none jj l); [|done]. rewrite <- (take_drop p l), ids_app. apply elem_of_app. by right.
      - split; [intros Hj; unfold locs in Hj; apply elem_of_list_fmap in Hj as (? & [=] & _)|]. intros [= ->]. cbn [pos] in Hs. rewrite Nat.eqb_refl in Hs. cbn in Hs.
        pose proof (pos_le _ _ _ _ Hp) as Le. apply Nat.leb_le in Le. by rewrite Le in Hs. }
    destruct Hl as [Hl1 Hl2]. rewrite (erase_range_miss true _ _ _ _ _ _ _ (fuel_of s) Rs Hx'); [done|unfold fuel_of; lia|done|done].
  - destruct (seqs w !! x) as [l|] eqn:Hx; [done|]. unfold pop_back, empty, size. by rewrite (proj2 (Nl _ Hx)).
  - destruct (seqs w !! x) as [l|] eqn:Hx; [done|]. unfold pop_front, empty, size. by rewrite (proj2 (Nl _ Hx)).
  - destruct (seqs w !! x) as [l|] eqn:Hx; [done|]. unfold clear, empty, size. by rewrite (proj2 (Nl _ Hx)).
  - unfold swap. destruct (seqs w !! y) as [k|] eqn:Hy; [|by rewrite (gone_next _ _ _ (proj1 (Nl _ Hy)))].
    destruct (seqs w !! x) as [l|] eqn:Hx; cbn in Hs; [by destruct (Nat.eqb x y)|].
    destruct (next_cases true (H y) s) as [->|[b ->]]; [done|]. cbn [obind].
    destruct (prev true (H y) s) as [b'| |] eqn:Ep; cbn [obind]; [by rewrite (gone_next _ _ _ (proj1 (Nl _ Hx)))|done|].
    exfalso. unfold prev, get_prv, on_null in Ep. destruct (get_cases (H y) s) as [E|[c E]]; rewrite E in Ep; cbn in Ep; [done|]. by destruct (pv c).
  - unfold assign_copy. destruct (seqs w !! y) as [l|] eqn:Hy.
    + destruct (seqs w !! x) as [k|] eqn:Hx; [done|].
      destruct (copy_ok true _ _ _ 0 _ _ (fuel_of s) Rs (rl_zero _ _ _ R) Hy) as (t & -> & Rt).
      { pose proof (repr_length _ _ _ _ _ Rs Hy). unfold fuel_of. lia. }
      cbn [obind]. unfold swap. rewrite gone_next; [done|]. apply (no_list _ _ _ _ Rt). rewrite lookup_insert_ne; [done|]. by intros <-.
    + unfold list_copy. destruct (new_ok _ _ _ _ Rs (rl_zero _ _ _ R)) as (t & -> & Rt). cbn [obind]. unfold list_begin.
      rewrite gone_next; [done|]. apply (no_list _ _ _ _ Rt). rewrite lookup_insert_ne; [done|]. by intros <-.
  - unfold assign_move. destruct (seqs w !! y) as [l|] eqn:Hy.
    + destruct (seqs w !! x) as [k|] eqn:Hx; [done|].
      destruct (move_ok true _ _ _ 0 _ _ Rs (rl_zero _ _ _ R) Hy) as (t & -> & Rt).
      cbn [obind]. unfold swap. rewrite gone_next; [done|]. apply (no_list _ _ _ _ Rt). rewrite lookup_insert_ne by (by intros <-).
      rewrite lookup_insert_ne; [done|]. intros ->. by rewrite Hx in Hy.
    + unfold list_move. destruct (new_ok _ _ _ _ Rs (rl_zero _ _ _ R)) as (t & -> & Rt). cbn [obind]. unfold swap.
      assert (G : cells t !! H y = None) by (apply (no_list _ _ _ _ Rt); rewrite lookup_insert_ne; [done|]; by intros <-).
      destruct (next_cases true (H 0) t) as [->|[b ->]]; [done|]. cbn [obind].
      destruct (prev true (H 0) t) as [b'| |] eqn:Ep; cbn [obind]; [by rewrite (gone_next _ _ _ G)|done|].
      exfalso. unfold prev, get_prv, on_null in Ep. destruct (get_cases (H 0) t) as [E|[c E]]; rewrite E in Ep; cbn in Ep; [done|]. by destruct (pv c).
  - destruct (seqs w !! x) as [l|] eqn:Hx; [done|]. unfold list_begin. by rewrite (gone_next _ _ _ (proj1 (Nl _ Hx))).
  - destruct (seqs w !! x) as [l|] eqn:Hx; [done|]. unfold size. by rewrite (proj2 (Nl _ Hx)).
  - destruct (use_cases e s w i x R F) as [(_ & ->)|(m & Em & -> & [(_ & Hg)|(l & p & Hx & Hp)])]; cbn [obind]; [done|by rewrite (gone_next _ _ _ Hg)|].
    rewrite Hx in Hs. cbn in Hs. rewrite Em in Hs. cbn in Hs. by rewrite Hp in Hs.
  - destruct (use_cases e s w i x R F) as [(_ & ->)|(m & Em & -> & [(_ & Hg)|(l & p & Hx & Hp)])]; cbn [obind]; [done|by rewrite (gone_prev _ _ _ Hg)|].
    rewrite Hx in Hs. cbn in Hs. rewrite Em in Hs. cbn in Hs. by rewrite Hp in Hs.
  - destruct (use_cases e s w i x R F) as [(_ & ->)|(m & Em & -> & [(_ & Hg)|(l & p & Hx & Hp)])]; cbn [obind]; [done|by rewrite (gone_set_value _ _ _ Hg)|].
    rewrite Hx in Hs. cbn in Hs. rewrite Em in Hs. cbn in Hs. rewrite Hp in Hs. cbn in Hs.
    destruct (l !! p) eqn:El; [done|]. destruct (pos_end _ _ _ _ Hp El) as (-> & _). cbn [loc_of].
    by rewrite (proj2 (head_value _ _ _ _ _ Rs Hx)).
Qed.

(** Steps round the end. *)
Lemma step_right e s w c w' : related e s w -> xstep w c = Some w' ->
  exists e' s', lstep true (e, s) c = Ok (e', s') /\ related e' s' w'.
Proof.
  intros R Hs. destruct (sstep w c) as [w1|] eqn:E1.
  - assert (w1 = w') as ->.
    { destruct c; cbn [xstep sstep] in *; try congruence.
      - apply bind_Some in E1 as (l & Hx & E1). apply bind_Some in E1 as (m & Em & E1). apply bind_Some in E1 as (p & Hp & E1).
        apply bind_Some in E1 as (f & Hf & E1). rewrite Hx in Hs. cbn in Hs. rewrite Em in Hs. cbn in Hs. rewrite Hp in Hs. cbn in Hs.
        replace (Nat.eqb p (length l)) with false in Hs; [congruence|]. symmetry. apply Nat.eqb_neq. apply lookup_lt_Some in Hf. lia.
      - apply bind_Some in E1 as (l & Hx & E1). apply bind_Some in E1 as (m & Em & E1). apply bind_Some in E1 as (p & Hp & E1).
        rewrite Hx in Hs. cbn in Hs. rewrite Em in Hs. cbn in Hs. rewrite Hp in Hs. cbn in Hs. destruct p; [done|congruence]. }
    by apply (step_ok e s w).
  - pose proof (rl_repr _ _ _ R) as Rs. destruct c; cbn [xstep sstep lstep] in *; try congruence.
    + apply bind_Some in Hs as (l & Hx & Hs). apply bind_Some in Hs as (m & Em & Hs). apply bind_Some in Hs as (p & Hp & Hs).
      rewrite Hx in E1. cbn in E1. rewrite Em in E1. cbn in E1. rewrite Hp in E1. cbn in E1. destruct (l !! p) eqn:El; [done|].
      destruct (pos_end _ _ _ _ Hp El) as (-> & ->). rewrite Nat.eqb_refl in Hs. injection Hs as <-.
      rewrite (iter_ok _ _ _ _ _ R Em). cbn [obind loc_of].
      pose proof (repr_begin true _ _ _ _ _ Rs Hx) as Hb. unfold list_begin in Hb. rewrite Hb. cbn [obind].
      eexists _, _. split; [reflexivity|].
      apply (yield_related e s s w _ _ (mark_at x l 0)); [done|by rewrite mark_at_loc|done|apply R|done].
    + apply bind_Some in Hs as (l & Hx & Hs). apply bind_Some in Hs as (m & Em & Hs). apply bind_Some in Hs as (p & Hp & Hs).
      rewrite Hx in E1. cbn in E1. rewrite Em in E1. cbn in E1. rewrite Hp in E1. cbn in E1. destruct p as [|p]; [|done].
      injection Hs as <-. rewrite (iter_ok _ _ _ _ _ R Em). cbn [obind]. rewrite (pos_loc _ _ _ _ Hp).
      assert (Ex : seqs w !! x = Some ([] ++ drop 0 l)) by done.
      rewrite (repr_prev true _ _ _ _ _ _ Rs Ex). cbn [obind]. eexists _, _. split; [reflexivity|].
      apply (yield_related e s s w _ _ (mark_at x l (length l))); [done|rewrite mark_at_loc, drop_all; done|done|apply R|done].
Qed.

(** Iterators are not older than their elements. *)
Lemma aged_set j m w : (forall k, m = At k -> k < born w) -> aged w -> aged (set_mark j m w).
Proof.
  intros Hm Ag i k. cbn. destruct (decide (i = j)) as [->|]; [rewrite lookup_insert; intros [= ->]; by apply Hm|].
  rewrite lookup_insert_ne by done. apply Ag.
Qed.
Lemma aged_same w w' : marks w' = marks w -> born w <= born w' -> aged w -> aged w'.
Proof. intros Hm Hb Ag i k. rewrite Hm. intros E. specialize (Ag i k E). lia. Qed.
Lemma mark_at_aged x (l : seq) p w k : (forall i, i ∈ ids l -> i < born w) -> mark_at x l p = At k -> k < born w.
Proof.
  intros Hl. unfold mark_at. destruct (l !! p) as [f|] eqn:E; [|done]. intros [= <-]. apply Hl. apply elem_of_list_fmap. exists f.
  split; [done|]. by apply elem_of_list_lookup_2 in E.
Qed.
Lemma aged_step w c w' : (forall x l i, seqs w !! x = Some l -> i ∈ ids l -> i < born w) -> aged w -> xstep w c = Some w' -> aged w'.
Proof.
  intros Lt Ag Hs.
  assert (Nw : forall x l w', new x l w = Some w' -> aged w').
  { intros x l u. unfold new. destruct x; [done|]. destruct (seqs w !! S x); [done|]. intros [= <-].
    apply (aged_same w); [done|cbn; lia|done]. }
  destruct c; cbn [xstep sstep] in Hs;
    repeat match goal with H : (_ ≫= _) = Some _ |- _ => let x := fresh "o" in let E := fresh "E" in apply bind_Some in H as (x & E & H) end;
    try (by eapply Nw);
    try (injection Hs as <-; apply (aged_same w); [done|cbn; lia|done]).
  - injection Hs as <-. apply Nw in E0. by apply (aged_same o0).
  - injection Hs as <-. apply aged_set; [intros k [= <-]; cbn; lia|]. apply (aged_same w); [done|cbn; lia|done].
  - injection Hs as <-. apply aged_set; [|by apply (aged_same w)]. intros k Hk. cbn. apply (mark_at_aged x o (S o1)); [|done].
    intros. by apply (Lt x o).
  - destruct (Nat.leb o2 o3); [|done]. injection Hs as <-. apply aged_set; [|by apply (aged_same w)].
    intros k' ->. cbn. exact (Ag _ _ E1).
  - destruct (Nat.eqb x y); [done|]. injection Hs as <-. by apply (aged_same w).
  - injection Hs as <-. apply aged_set; [|done]. intros k Hk. apply (mark_at_aged x o 0); [|done]. intros. by apply (Lt x o).
  - injection Hs as <-. by apply aged_set.
  - injection Hs as <-. apply aged_set; [|done]. intros k Hk. eapply (mark_at_aged x o); [|exact Hk]. intros. by apply (Lt x o).
  - injection Hs as <-. apply aged_set; [|done]. intros k Hk. eapply (mark_at_aged x o); [|exact Hk]. intros. by apply (Lt x o).
Qed.

Lemma xstep_ok e s w c w' : xrelated e s w -> xstep w c = Some w' ->
  exists e' s', lstep true (e, s) c = Ok (e', s') /\ xrelated e' s' w'.
Proof.
  intros [R Ag] Hs. destruct (step_right _ _ _ _ _ R Hs) as (e' & s' & E & R'). exists e', s'. split; [done|]. split; [done|].
  apply (aged_step w c); [|done|done]. intros x l i Hx Hi. destruct R as [(n & p & v & g & Sn & RR) _ _]. exact (r_lt _ _ _ _ _ _ RR x l i Hx Hi).
Qed.

Lemma xrun_ok cs : forall e s w, xrelated e s w -> formed_run w cs = true ->
  match xrun w cs with
  | Some w' => exists e' s', lrun true (e, s) cs = Ok (e', s') /\ xrelated e' s' w'
  | None => lrun true (e, s) cs = UB
  end.
Proof.
  induction cs as [|c cs IH]; intros e s w R F; cbn [xrun lrun formed_run] in *; [eauto|].
  apply andb_prop in F as [F1 F2]. destruct (xstep w c) as [w1|] eqn:E; cbn [mbind option_bind].
  - destruct (xstep_ok _ _ _ _ _ R E) as (e1 & s1 & -> & R1). cbn [obind]. by apply IH.
  - by rewrite (step_wrong _ _ _ _ R F1 E).
Qed.

Lemma xhistory (cs : list (lcmd A)) : formed_run world0 cs = true ->
  match xrun world0 cs with
  | Some w => exists e s, lrun true (∅, heap0) cs = Ok (e, s) /\
      (forall x l, seqs w !! x = Some l -> shows true s x (snd <$> l)) /\
      (forall x, seqs w !! x = None -> sizes s !! x = None) /\
      (forall i, is_Some (cells s !! N i) <-> exists x l d, seqs w !! x = Some l /\ (i, d) ∈ l)
  | None => lrun true (∅, heap0) cs = UB
  end.
Proof.
  intros F. assert (R0 : xrelated ∅ heap0 (world0 (A := A))).
  { split; [exact related0|]. intros i k. cbn. by rewrite lookup_empty. }
  pose proof (xrun_ok cs _ _ _ R0 F) as Q. destruct (xrun world0 cs) as [w|]; [|done]. destruct Q as (e & s & E & [R _]).
  pose proof (rl_repr _ _ _ R) as Rs.
  exists e, s. split; [done|]. split; [intros x l; by apply (shows_ok true _ (born w))|]. split.
  - intros x Hx. exact (proj2 (no_list _ _ _ _ Rs Hx)).
  - intros i. rewrite (repr_cells _ _ _ _ Rs). split.
    + intros (x & l & Hx & Hi). unfold ids in Hi. apply elem_of_list_fmap in Hi as ([j d] & -> & Hi). eauto.
    + intros (x & l & d & Hx & Hi). exists x, l. split; [done|]. unfold ids. apply elem_of_list_fmap. exists (i, d). done.
Qed.

Lemma agree (cs : list (lcmd A)) : forall w w', srun w cs = Some w' -> xrun w cs = Some w'.
Proof.
  induction cs as [|c cs IH]; intros w w'; cbn [srun xrun]; [done|]. intros E. apply bind_Some in E as (w1 & E1 & E2).
  assert (xstep w c = Some w1) as ->; [|by apply IH].
  destruct c; cbn [xstep sstep] in *; try done.
  - apply bind_Some in E1 as (l & Hx & E1). apply bind_Some in E1 as (m & Em & E1). apply bind_Some in E1 as (p & Hp & E1).
    apply bind_Some in E1 as (f & Hf & E1). rewrite Hx. cbn. rewrite Em. cbn. rewrite Hp. cbn.
    replace (Nat.eqb p (length l)) with false; [done|]. symmetry. apply Nat.eqb_neq. apply lookup_lt_Some in Hf. lia.
  - apply bind_Some in E1 as (l & Hx & E1). apply bind_Some in E1 as (m & Em & E1). apply bind_Some in E1 as (p & Hp & E1).
    rewrite Hx. cbn. rewrite Em. cbn. rewrite Hp. cbn. by destruct p.
Qed.
End exact.
