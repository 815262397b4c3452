(** Range erase, clear, swap, destruction, writes. *)
From stdpp Require Import gmap list.
From Coq Require Import ZArith Lia.
From Verif Require Import Base ListModel ListSpec ListProofs ListOps.
Local Open Scope outcome_scope.

Ltac upds := repeat first [rewrite upd_eq | rewrite upd_ne by (congruence || assumption)].

Section more.
Context {A : Type}.
Notation heap := (heap A).
Notation seq := (list (nat * A)).
Notation links_t := (loc -> option (option loc)).
Implicit Types (s t : heap) (W : gmap nat seq).

Lemma bounded_length (l : list nat) k : NoDup l -> (forall i, i ∈ l -> i < k) -> length l <= k.
Proof.
  intros ND Hlt. rewrite <- (seq_length k 0). apply submseteq_length, NoDup_submseteq; [done|].
  intros i Hi. apply elem_of_seq. specialize (Hlt i Hi). lia.
Qed.
Lemma rel_length W k (n p : links_t) (v : loc -> option (option A)) g x l : rel W k n p v g -> W !! x = Some l -> length l <= k.
Proof.
  intros R Hx. rewrite <- (fmap_length fst l). apply bounded_length; [apply (r_nodup _ _ _ _ _ _ R x l Hx)|].
  intros i Hi. exact (r_lt _ _ _ _ _ _ R x l i Hx Hi).
Qed.
Lemma repr_length W k s x l : repr W k s -> W !! x = Some l -> length l <= k.
Proof. intros (n & p & v & g & Sn & R) Hx. exact (rel_length _ _ _ _ _ _ _ _ R Hx). Qed.
Lemma repr_made W k s : repr W k s -> made s = k.
Proof. intros (n & p & v & g & Sn & R). apply Sn. Qed.

(** The effect of deleting the nodes of [mid]. *)
Definition dropped (mid : seq) (n p : links_t) (v : loc -> option (option A)) (n' p' : links_t) (v' : loc -> option (option A)) : Prop :=
  (forall z, z ∉ locs mid -> n' z = n z /\ p' z = p z /\ v' z = v z) /\ (forall z, z ∈ locs mid -> v' z = None).

Lemma locs_cons (e : nat * A) l : locs (e :: l) = N (fst e) :: locs l. Proof. done. Qed.

Lemma dropped_cons e mid n p v n' p' v' : N (fst e) ∉ locs mid ->
  dropped mid (upd n (N (fst e)) None) (upd p (N (fst e)) None) (upd v (N (fst e)) None) n' p' v' ->
  dropped (e :: mid) n p v n' p' v'.
Proof.
  intros Hne [D1 D2]. split; intros z Hz; rewrite locs_cons in Hz.
  - apply not_elem_of_cons in Hz as [Hz1 Hz2]. destruct (D1 z Hz2) as (-> & -> & ->). by upds.
  - apply elem_of_cons in Hz as [->|Hz]; [|by apply D2]. destruct (D1 _ Hne) as (_ & _ & ->). by upds.
Qed.

Lemma erase_loop_ok lax x l2 mid : forall s n p v g k c fuel,
  sees s n p v g k -> NoDup (ids mid) -> behind x l2 ∉ locs mid ->
  (forall m1 e m2, mid = m1 ++ e :: m2 -> n (N (fst e)) = Some (Some (behind x (m2 ++ l2)))) ->
  (forall z, z ∈ locs mid -> is_Some (v z)) -> length mid < fuel ->
  exists t n' p' v', erase_loop lax fuel (behind x (mid ++ l2)) (behind x l2) c s = Ok ((c + Z.of_nat (length mid))%Z, t) /\
    sees t n' p' v' g k /\ dropped mid n p v n' p' v'.
Proof.
  induction mid as [|e mid IH]; intros s n p v g k c fuel Sn ND Hl Hn Hv Hf.
  - destruct fuel; [cbn in Hf; lia|]. cbn [erase_loop app]. rewrite decide_True by done.
    exists s, n, p, v. split; [cbn; do 2 f_equal; lia|]. split; [done|]. split; [done|]. intros z Hz. by apply elem_of_nil in Hz.
  - destruct fuel as [|fuel]; [cbn in Hf; lia|]. cbn [erase_loop app]. rewrite behind_cons.
    rewrite locs_cons in Hl. apply not_elem_of_cons in Hl as [Hl1 Hl2].
    rewrite decide_False by done. rewrite (next_ok lax s _ _ _ _ _ _ _ Sn (Hn [] e mid eq_refl)). cbn [obind].
    destruct (destory_ok s (fst e) _ _ _ _ _ Sn) as (u & E & Su); [apply Hv; rewrite locs_cons; apply elem_of_list_here|].
    rewrite E. cbn [obind]. unfold ids in ND. cbn in ND. apply NoDup_cons in ND as [ND1 ND2].
    assert (Ne : N (fst e) ∉ locs mid) by (rewrite locs_in; done).
    destruct (IH u _ _ _ _ _ (c + 1)%Z fuel Su) as (t & n' & p' & v' & Et & St & D).
    + done.
    + done.
    + intros m1 f m2 ->. rewrite upd_ne; [by apply (Hn (e :: m1))|]. intros [= E']. apply ND1. apply elem_of_list_fmap.
      exists f. split; [done|]. apply elem_of_app. right. apply elem_of_list_here.
    + intros z Hz. rewrite upd_ne; [apply Hv; rewrite locs_cons; by apply elem_of_list_further|]. intros ->. done.
    + cbn in Hf. lia.
    + exists t, n', p', v'. rewrite Et. split; [cbn [length]; do 2 f_equal; lia|]. split; [done|]. by apply dropped_cons.
Qed.
Lemma clear_loop_ok l : forall s n p v g k fuel,
  sees s n p v g k -> NoDup (ids l) ->
  (forall m1 e m2, l = m1 ++ e :: m2 -> n (N (fst e)) = Some (head (locs m2))) ->
  (forall z, z ∈ locs l -> is_Some (v z)) -> length l <= fuel ->
  exists t n' p' v', clear_loop true fuel (head (locs l)) s = Ok t /\
    sees t n' p' v' g k /\ dropped l n p v n' p' v'.
Proof.
  induction l as [|e l IH]; intros s n p v g k fuel Sn ND Hn Hv Hf.
  - exists s, n, p, v. split; [by destruct fuel|]. split; [done|]. split; [done|]. intros z Hz. by apply elem_of_nil in Hz.
  - rewrite locs_cons. destruct fuel as [|fuel]; [cbn in Hf; lia|]. cbn [clear_loop head].
    assert (V : is_Some (v (N (fst e)))) by (apply Hv; rewrite locs_cons; apply elem_of_list_here).
    assert (G : get_next true (N (fst e)) s = Ok (head (locs l))).
    { unfold get_next. destruct (read_ok _ (N (fst e)) _ _ _ _ _ Sn V) as (c & -> & Hc & _).
      rewrite (Hn [] e l eq_refl) in Hc. injection Hc as Hc. cbn [obind]. rewrite <- Hc. by destruct (head (locs l)). }
    rewrite G. cbn [obind]. destruct (destory_ok s (fst e) _ _ _ _ _ Sn V) as (u & E & Su).
    rewrite E. cbn [obind]. unfold ids in ND. cbn in ND. apply NoDup_cons in ND as [ND1 ND2].
    assert (Ne : N (fst e) ∉ locs l) by (rewrite locs_in; done).
    destruct (IH u _ _ _ _ _ fuel Su) as (t & n' & p' & v' & Et & St & D).
    + done.
    + intros m1 f m2 ->. rewrite upd_ne; [by apply (Hn (e :: m1))|]. intros [= E']. apply ND1. apply elem_of_list_fmap.
      exists f. split; [done|]. apply elem_of_app. right. apply elem_of_list_here.
    + intros z Hz. rewrite upd_ne; [apply Hv; rewrite locs_cons; by apply elem_of_list_further|]. intros ->. done.
    + cbn in Hf. lia.
    + exists t, n', p', v'. split; [done|]. split; [done|]. by apply dropped_cons.
Qed.

Lemma erase_range_ok lax W k s x l1 mid l2 fuel : repr W k s -> W !! x = Some (l1 ++ mid ++ l2) -> k < fuel ->
  exists t, erase_range lax fuel x (behind x (mid ++ l2)) (behind x l2) s = Ok (behind x l2, t) /\ repr (<[x := l1 ++ l2]> W) k t.
Proof.
  intros (n & p & v & g & Sn & R) Hx Hf. pose proof (r_nodup _ _ _ _ _ _ R _ _ Hx) as ND.
  destruct (around _ _ _ _ _ _ _ _ _ R Hx) as (A1 & A2 & A3 & A4 & A5).
  pose proof (rel_length _ _ _ _ _ _ _ _ R Hx) as Len. rewrite !app_length in Len.
  assert (NDm : NoDup (ids mid)) by (rewrite !ids_app in ND; apply NoDup_app in ND as (_ & _ & ND); by apply NoDup_app in ND as (? & _)).
  assert (NDr : NoDup (ids (mid ++ l2))) by (rewrite ids_app in ND; by apply NoDup_app in ND as (_ & _ & ?)).
  assert (Hx' : W !! x = Some ((l1 ++ mid) ++ l2)) by (by rewrite <- app_assoc).
  destruct (around _ _ _ _ _ _ _ _ _ R Hx') as (B1 & B2 & B3 & B4 & _).
  assert (Bm : before x l1 ∉ locs mid).
  { pose proof (before_not_back x _ _ ND) as Q. rewrite locs_app in Q. intros ?. apply Q. apply elem_of_app. auto. }
  assert (Qm : behind x l2 ∉ locs mid) by (apply (behind_not_front x mid l2 NDr)).
  unfold erase_range. rewrite (prev_ok lax s _ _ _ _ _ _ _ Sn A2). cbn [obind].
  destruct (unlink_next_ok s (before x l1) (behind x (mid ++ l2)) _ _ _ _ _ Sn A1 A3 A4) as (s1 & E1 & S1).
  rewrite E1. cbn [obind].
  destruct (erase_loop_ok lax x l2 mid s1 _ _ _ _ _ 0 fuel S1) as (s2 & n' & p' & v' & E2 & S2 & D1 & D2).
  - done.
  - done.
  - intros m1 e m2 ->. rewrite upd_ne.
    + assert (Hx2 : W !! x = Some ((l1 ++ m1 ++ [e]) ++ m2 ++ l2)) by (rewrite Hx; f_equal; rewrite <- !app_assoc; done).
      destruct (around _ _ _ _ _ _ _ _ _ R Hx2) as (C1 & _). rewrite app_assoc, before_snoc in C1. done.
    + intros E. rewrite <- E in Bm. apply Bm. rewrite locs_app, locs_cons. apply elem_of_app. right. apply elem_of_list_here.
  - intros z Hz. apply (links_in _ _ _ _ _ _ z (r_rep _ _ _ _ _ _ R _ _ Hx)). rewrite !locs_app. apply elem_of_cons. right.
    apply elem_of_app. right. apply elem_of_app. auto.
  - lia.
  - rewrite E2. cbn [obind]. destruct (D1 (before x l1) Bm) as (F1 & F2 & F3). rewrite upd_eq in F1.
    destruct (D1 (behind x l2) Qm) as (F4 & F5 & F6).
    destruct (link_next_null s2 (before x l1) (behind x l2) _ _ _ _ _ S2) as (s3 & E3 & S3); [done|by rewrite F3|by rewrite F6|].
    rewrite E3. cbn [obind]. rewrite (size_ok _ _ _ _ _ _ _ _ S3 A5). cbn [obind].
    destruct (set_size_ok s3 x (Z.of_nat (length (l1 ++ mid ++ l2)) - (0 + Z.of_nat (length mid))) _ _ _ _ _ _ S3 A5) as (s4 & E4 & S4).
    rewrite E4. cbn [obind]. exists s4. split; [done|]. eexists _, _, _, _. split; [exact S4|].
    apply (cut W k n p v g x l1 mid l2); try done; upds; try done.
    + intros z Hz Hb. upds. destruct (D1 z Hz) as (-> & _ & _). by upds.
    + intros z Hz Hb. upds. destruct (D1 z Hz) as (_ & -> & _).
      destruct (decide (z = behind x (mid ++ l2))) as [->|]; [|by upds]. exfalso. destruct mid as [|e mid]; [done|].
      apply Hz. cbn [app]. rewrite behind_cons, locs_cons. apply elem_of_list_here.
    + intros z Hz. by destruct (D1 z Hz) as (_ & _ & ->).
    + f_equal. rewrite !app_length. lia.
Qed.

(** Taking the sentinel out of its chain, and putting it into a chain. *)
Lemma detach_ok W k s n p v g x l : sees s n p v g k -> lrep n p v g x l -> NoDup (ids l) ->
  exists t u n' p', unlink_next (H x) s = Ok t /\ unlink_prv (H x) t = Ok u /\ sees u n' p' v g k /\
    n' (H x) = Some None /\ p' (H x) = Some None /\
    (forall z, z <> H x -> z <> before x l -> n' z = n z) /\ (forall z, z <> H x -> z <> behind x l -> p' z = p z) /\
    (l <> [] -> n' (before x l) = Some None /\ p' (behind x l) = Some None).
Proof.
  intros Sn L ND. pose proof L as [C H1 _ _].
  assert (AA : forall l1 l2, l = l1 ++ l2 -> link n p (before x l1) (behind x l2)).
  { intros l1 l2 ->. apply chain_split in C. tauto. }
  assert (V : forall z, z ∈ H x :: locs l -> is_Some (v z)) by (intros z Hz; exact (links_in _ _ _ _ _ _ z L Hz)).
  destruct (AA [] l eq_refl) as [A1 A2]. destruct (AA l [] ltac:(by rewrite app_nil_r)) as [A3 A4].
  rewrite before_nil in *. change (behind x []) with (H x) in *.
  destruct (unlink_next_ok s (H x) (behind x l) _ _ _ _ _ Sn A1) as (t & E1 & S1); [apply V, elem_of_list_here|apply V, behind_in|].
  destruct l as [|e l].
  - change (behind x []) with (H x) in *. change (before x []) with (H x) in *.
    destruct (unlink_prv_null t (H x) _ _ _ _ _ S1) as (u & E2 & S2); [by upds|apply V, elem_of_list_here|].
    exists t, u. eexists _, _. split; [done|]. split; [done|]. split; [exact S2|]. upds. split; [done|]. split; [done|].
    split; [|split; [|done]]; intros z ??; by upds.
  - assert (Hb : behind x (e :: l) <> H x) by done.
    assert (Hf : before x (e :: l) <> H x).
    { intros E. pose proof (before_in x (e :: l)). destruct (e :: l) as [|f m _] eqn:F using rev_ind; [done|]. rewrite before_snoc in E. done. }
    destruct (unlink_prv_some t (H x) (before x (e :: l)) _ _ _ _ _ S1) as (u & E2 & S2);
      [by upds|apply V, elem_of_list_here|apply V, before_in|].
    exists t, u. eexists _, _. split; [done|]. split; [done|]. split; [exact S2|]. upds. split; [done|]. split; [done|].
    split; [|split]; [intros z ??; by upds|intros z ??; by upds|]. intros _. upds. done.
Qed.
Lemma attach_ok k s n p v g x (l : seq) : sees s n p v g k -> n (H x) = Some None -> p (H x) = Some None ->
  is_Some (v (H x)) -> (forall z, z ∈ locs l -> is_Some (v z)) -> NoDup (ids l) ->
  exists t n' p', match l with [] => link_next (H x) (H x) s | _ => u <~ link_next (H x) (behind x l) s ; link_prv (H x) (before x l) u end = Ok t /\
    sees t n' p' v g k /\
    n' (H x) = Some (Some (behind x l)) /\ n' (before x l) = Some (Some (match l with [] => behind x l | _ => H x end)) /\
    p' (H x) = Some (Some (before x l)) /\ p' (behind x l) = Some (Some (match l with [] => before x l | _ => H x end)) /\
    (forall z, z <> H x -> z <> before x l -> n' z = n z) /\ (forall z, z <> H x -> z <> behind x l -> p' z = p z).
Proof.
  intros Sn Hn Hp Vx V ND. destruct l as [|e l].
  - destruct (link_next_null s (H x) (H x) _ _ _ _ _ Sn Hn Vx Vx) as (t & E & S1).
    exists t. eexists _, _. split; [done|]. split; [exact S1|]. change (behind x []) with (H x). change (before x []) with (H x). upds.
    do 4 (split; [done|]). split; intros z ??; by upds.
  - assert (Vb : is_Some (v (behind x (e :: l)))) by (apply V; rewrite behind_cons, locs_cons; apply elem_of_list_here).
    assert (Hb : behind x (e :: l) <> H x) by done.
    assert (Hf : before x (e :: l) ∈ locs (e :: l) /\ before x (e :: l) <> H x).
    { destruct (e :: l) as [|f m _] eqn:F using rev_ind; [done|]. rewrite before_snoc. split; [|done].
      rewrite locs_app. apply elem_of_app. right. apply elem_of_list_here. }
    destruct Hf as [Hf1 Hf2].
    destruct (link_next_null s (H x) (behind x (e :: l)) _ _ _ _ _ Sn Hn Vx Vb) as (u & E1 & S1).
    destruct (link_prv_null u (H x) (before x (e :: l)) _ _ _ _ _ S1) as (t & E2 & S2); [by upds|done|by apply V|].
    exists t. eexists _, _. rewrite E1. cbn [obind]. split; [done|]. split; [exact S2|]. upds. do 4 (split; [done|]).
    split; intros z ??; by upds.
Qed.

Lemma before_any x y (l : seq) : l <> [] -> before x l = before y l.
Proof. destruct l as [|e l _] using rev_ind; [done|]. by rewrite !before_snoc. Qed.
Lemma behind_any x y (l : seq) : l <> [] -> behind x l = behind y l.
Proof. by destruct l. Qed.
Lemma before_loc x (l : seq) : l <> [] -> before x l ∈ locs l.
Proof. destruct l as [|e l _] using rev_ind; [done|]. intros _. rewrite before_snoc, locs_app. apply elem_of_app. right. apply elem_of_list_here. Qed.
Lemma behind_loc x (l : seq) : l <> [] -> behind x l ∈ locs l.
Proof. destruct l as [|e l]; [done|]. intros _. apply elem_of_list_here. Qed.
Lemma chain_nonempty n p x (l : seq) : l <> [] -> links n p (H x :: locs l ++ [H x]) <->
  link n p (H x) (behind x l) /\ links n p (locs l) /\ link n p (before x l) (H x).
Proof.
  intros Hl. rewrite <- (app_nil_r l) at 1. rewrite chain_split. change (behind x []) with (H x). change (locs (@nil (nat * A))) with (@nil loc). change (links n p ([] ++ [H x])) with True.
  destruct l as [|e l]; [done|]. rewrite locs_cons, links_cons, behind_cons. tauto.
Qed.

Lemma inner_frame n p n' p' x (l : seq) : NoDup (ids l) -> (forall z, z ∈ locs l -> z <> before x l -> n' z = n z) ->
  (forall z, z ∈ locs l -> z <> behind x l -> p' z = p z) -> links n p (locs l) -> links n' p' (locs l).
Proof.
  intros ND Hn Hp. destruct l as [|e l]; [done|]. destruct l as [|f l _] using rev_ind; [done|].
  pose proof (locs_nodup _ ND) as NL. rewrite behind_cons in Hp. rewrite app_comm_cons, before_snoc in Hn.
  change (e :: l ++ [f]) with ((e :: l) ++ [f]) in *. rewrite locs_app, !locs_cons in *. change (locs (@nil (nat * A))) with (@nil loc) in *.
  cbn [app] in *. apply NoDup_cons in NL as [NL1 NL2]. apply NoDup_app in NL2 as (_ & NL2 & _).
  apply links_frame.
  - intros z Hz. apply Hn; [apply elem_of_cons in Hz as [->|Hz]; [apply elem_of_list_here|apply elem_of_list_further, elem_of_app; auto]|].
    intros ->. apply elem_of_cons in Hz as [Hz|Hz].
    + apply NL1. rewrite Hz. apply elem_of_app. right. apply elem_of_list_here.
    + apply (NL2 _ Hz). apply elem_of_list_here.
  - intros z Hz. apply Hp; [by apply elem_of_list_further|]. intros ->. done.
Qed.
Lemma lrep_frame n p v g n' p' x l : (forall z, z ∈ H x :: locs l -> n' z = n z /\ p' z = p z) ->
  lrep n p v g x l -> lrep (A := A) n' p' v g x l.
Proof.
  intros F [R1 R2 R3 R4]. split; [|done|done|done]. apply (links_frame n p); [intros z Hz; by apply F| |done].
  intros z Hz. apply F. apply elem_of_app in Hz as [Hz|Hz]; [by apply elem_of_list_further|]. apply elem_of_list_singleton in Hz as ->. apply elem_of_list_here.
Qed.

Lemma swap_ok lax W k s h r l m : repr W k s -> W !! h = Some l -> W !! r = Some m -> h <> r ->
  exists t, swap lax h r s = Ok t /\ repr (<[r := l]> (<[h := m]> W)) k t.
Proof.
  intros (n & p & v & g & Sn & R) Hl Hm Hne.
  pose proof (r_rep _ _ _ _ _ _ R _ _ Hl) as Rl. pose proof (r_rep _ _ _ _ _ _ R _ _ Hm) as Rm.
  pose proof (r_nodup _ _ _ _ _ _ R _ _ Hl) as Nl. pose proof (r_nodup _ _ _ _ _ _ R _ _ Hm) as Nm.
  assert (Dis : forall z, z ∈ locs l -> z ∈ locs m -> False).
  { intros [y|i] H1 H2; [by apply locs_H in H1|]. apply Hne. rewrite locs_in in H1, H2.
    exact (r_disj _ _ _ _ _ _ R _ _ _ _ _ Hl Hm H1 H2). }
  assert (Bl : forall x, before x l = H x /\ behind x l = H x /\ l = [] \/ before x l ∈ locs l /\ behind x l ∈ locs l /\ l <> []).
  { intros x. destruct l as [|e l']; [by left|]. right. split; [by apply before_loc|]. split; [by apply behind_loc|done]. }
  assert (Bm : forall x, before x m = H x /\ behind x m = H x /\ m = [] \/ before x m ∈ locs m /\ behind x m ∈ locs m /\ m <> []).
  { intros x. destruct m as [|e m']; [by left|]. right. split; [by apply before_loc|]. split; [by apply behind_loc|done]. }
  assert (Al : forall l1 l2, l = l1 ++ l2 -> link n p (before h l1) (behind h l2)).
  { intros l1 l2 ->. pose proof (lr_links _ _ _ _ _ _ Rl) as C. apply chain_split in C. tauto. }
  assert (Am : forall l1 l2, m = l1 ++ l2 -> link n p (before r l1) (behind r l2)).
  { intros l1 l2 ->. pose proof (lr_links _ _ _ _ _ _ Rm) as C. apply chain_split in C. tauto. }
  unfold swap.
  destruct (Am [] m eq_refl) as [M1 _]. destruct (Am m [] ltac:(by rewrite app_nil_r)) as [_ M2].
  destruct (Al [] l eq_refl) as [L1 _]. destruct (Al l [] ltac:(by rewrite app_nil_r)) as [_ L2].
  rewrite !before_nil in *. change (behind r []) with (H r) in *. change (behind h []) with (H h) in *.
  rewrite (next_ok lax s _ _ _ _ _ _ _ Sn M1). cbn [obind]. rewrite (prev_ok lax s _ _ _ _ _ _ _ Sn M2). cbn [obind].
  rewrite (next_ok lax s _ _ _ _ _ _ _ Sn L1). cbn [obind]. rewrite (prev_ok lax s _ _ _ _ _ _ _ Sn L2). cbn [obind].
  destruct (detach_ok W k s n p v g r m Sn Rm Nm) as (t1 & u1 & n1 & p1 & E1 & E2 & S1 & D1 & D2 & D3 & D4 & D5).
  rewrite E1. cbn [obind]. rewrite E2. cbn [obind].
  assert (Rl1 : lrep n1 p1 v g h l).
  { apply (lrep_frame n p); [|done]. intros z Hz. assert (z <> H r) by (intros ->; apply elem_of_cons in Hz as [[= ->]|Hz]; [done|by apply locs_H in Hz]).
    assert (Hzm : z ∉ locs m) by (intros Hz'; apply elem_of_cons in Hz as [->|Hz]; [by apply locs_H in Hz'|by apply (Dis z)]).
    split; [apply D3; [done|]|apply D4; [done|]]; intros ->; destruct (Bm r) as [(B1 & B2 & _)|(B1 & B2 & _)]; congruence || done. }
  destruct (detach_ok W k u1 n1 p1 v g h l S1 Rl1 Nl) as (t2 & u2 & n2 & p2 & E3 & E4 & S2 & F1 & F2 & F3 & F4 & F5).
  rewrite E3. cbn [obind]. rewrite E4. cbn [obind].
  assert (Gh : g !! h = Some (Z.of_nat (length l))) by apply Rl. assert (Gr : g !! r = Some (Z.of_nat (length m))) by apply Rm.
  assert (Er : empty r u2 = Ok (match m with [] => true | _ => false end)).
  { unfold empty. rewrite (size_ok _ _ _ _ _ _ _ _ S2 Gr). cbn [obind]. by destruct m. }
  rewrite Er. cbn [obind].
  assert (Vl : forall z, z ∈ locs l -> is_Some (v z)) by (intros z Hz; apply (links_in _ _ _ _ _ _ z Rl); by apply elem_of_list_further).
  assert (Vm : forall z, z ∈ locs m -> is_Some (v z)) by (intros z Hz; apply (links_in _ _ _ _ _ _ z Rm); by apply elem_of_list_further).
  assert (HbL : forall x y, H y <> H x -> before x l <> H y /\ behind x l <> H y).
  { intros x y Hxy. destruct (Bl x) as [(B1 & B2 & _)|(B1 & B2 & _)]; [split; congruence|]. split; intros E; rewrite E in *; by eapply locs_H. }
  assert (HbM : forall x y, H y <> H x -> before x m <> H y /\ behind x m <> H y).
  { intros x y Hxy. destruct (Bm x) as [(B1 & B2 & _)|(B1 & B2 & _)]; [split; congruence|]. split; intros E; rewrite E in *; by eapply locs_H. }
  assert (Hhr : H h <> H r) by congruence.
  destruct (attach_ok k u2 n2 p2 v g h m S2 F1 F2) as (t3 & n3 & p3 & E5 & S3 & G1 & G2 & G3 & G4 & G5 & G6);
    [rewrite (lr_head _ _ _ _ _ _ Rl); eauto|done|done|].
  assert (E5' : (if match m with [] => true | _ => false end then link_next (H h) (H h) u2
     else s0 <~ link_next (H h) (behind r m) u2 ; link_prv (H h) (before r m) s0) = Ok t3).
  { destruct m as [|e m']; [done|]. rewrite (behind_any r h), (before_any r h) by done. done. }
  rewrite E5'. cbn [obind].
  assert (Eh : empty h t3 = Ok (match l with [] => true | _ => false end)).
  { unfold empty. rewrite (size_ok _ _ _ _ _ _ _ _ S3 Gh). cbn [obind]. by destruct l. }
  rewrite Eh. cbn [obind].
  assert (N3r : n3 (H r) = Some None).
  { rewrite G5; [|done|intros E; destruct (HbM h r (not_eq_sym Hhr)); congruence]. rewrite F3; [done|done|intros E; destruct (HbL h r (not_eq_sym Hhr)); congruence]. }
  assert (P3r : p3 (H r) = Some None).
  { rewrite G6; [|done|intros E; destruct (HbM h r (not_eq_sym Hhr)); congruence]. rewrite F4; [done|done|intros E; destruct (HbL h r (not_eq_sym Hhr)); congruence]. }
  destruct (attach_ok k t3 n3 p3 v g r l S3 N3r P3r) as (t4 & n4 & p4 & E6 & S4 & I1 & I2 & I3 & I4 & I5 & I6);
    [rewrite (lr_head _ _ _ _ _ _ Rm); eauto|done|done|].
  assert (E6' : (if match l with [] => true | _ => false end then link_next (H r) (H r) t3
     else s0 <~ link_next (H r) (behind h l) t3 ; link_prv (H r) (before h l) s0) = Ok t4).
  { destruct l as [|e l']; [done|]. rewrite (behind_any h r), (before_any h r) by done. done. }
  rewrite E6'. cbn [obind]. rewrite (size_ok _ _ _ _ _ _ _ _ S4 Gh). cbn [obind]. rewrite (size_ok _ _ _ _ _ _ _ _ S4 Gr). cbn [obind].
  destruct (set_size_ok t4 h (Z.of_nat (length m)) _ _ _ _ _ _ S4 Gh) as (t5 & E7 & S5). rewrite E7. cbn [obind].
  destruct (set_size_ok t5 r (Z.of_nat (length l)) (Z.of_nat (length m)) _ _ _ _ _ S5) as (t6 & E8 & S6); [by rewrite lookup_insert_ne|].
  exists t6. split; [done|]. eexists _, _, _, _. split; [exact S6|].
  assert (En : forall z, z <> H h -> z <> H r -> z <> before h m -> z <> before r l -> z <> before h l -> z <> before r m -> n4 z = n z).
  { intros. rewrite I5, G5, F3, D3; done. }
  assert (Ep : forall z, z <> H h -> z <> H r -> z <> behind h m -> z <> behind r l -> z <> behind h l -> z <> behind r m -> p4 z = p z).
  { intros. rewrite I6, G6, F4, D4; done. }
  assert (Out : forall z, z <> H h -> z <> H r -> z ∉ locs l -> z ∉ locs m -> n4 z = n z /\ p4 z = p z).
  { intros z Z1 Z2 Z3 Z4. split; [apply En|apply Ep]; try done; intros ->;
      destruct (Bl h) as [(? & ? & _)|(? & ? & _)], (Bl r) as [(? & ? & _)|(? & ? & _)],
        (Bm h) as [(? & ? & _)|(? & ? & _)], (Bm r) as [(? & ? & _)|(? & ? & _)]; congruence || done. }
  assert (RH : lrep n4 p4 v (<[r := Z.of_nat (length l)]> (<[h := Z.of_nat (length m)]> g)) h m).
  { split; [|by apply Rl|by apply Rm|by rewrite lookup_insert_ne, lookup_insert by done].
    assert (X1 : n4 (H h) = Some (Some (behind h m))) by (rewrite I5; [done|done|intros E; destruct (HbL r h Hhr); congruence]).
    assert (X2 : p4 (H h) = Some (Some (before h m))) by (rewrite I6; [done|done|intros E; destruct (HbL r h Hhr); congruence]).
    destruct (Bm h) as [(B1 & B2 & ->)|(B1 & B2 & B3)].
    - cbn. rewrite B1 in X2. rewrite B2 in X1. by repeat split.
    - apply chain_nonempty; [done|].
      assert (Y : forall z, z ∈ locs m -> z <> H r /\ z <> H h /\ z <> before r l /\ z <> behind r l /\ z <> before h l /\ z <> behind h l).
      { intros z Hz. assert (z <> H r /\ z <> H h) as [Z1 Z2] by (split; intros ->; by apply locs_H in Hz).
        split; [done|]. split; [done|]. repeat split; intros ->;
          destruct (Bl h) as [(? & ? & _)|(? & ? & _)], (Bl r) as [(? & ? & _)|(? & ? & _)]; first [congruence|match goal with X1 : ?w ∈ locs m, X2 : ?w ∈ locs l |- _ => exact (Dis w X2 X1) end]. }
      split; [|split].
      + split; [done|]. destruct (Y _ B2) as (Y1 & Y2 & Y3 & Y4 & Y5 & Y6). rewrite I6 by done. rewrite G4. destruct m; done.
      + apply (inner_frame n p n4 p4 h); [done| | |].
        * intros z Hz Hz'. destruct (Y _ Hz) as (Y1 & Y2 & Y3 & Y4 & Y5 & Y6). apply En; try done. by rewrite (before_any r h).
        * intros z Hz Hz'. destruct (Y _ Hz) as (Y1 & Y2 & Y3 & Y4 & Y5 & Y6). apply Ep; try done. by rewrite (behind_any r h).
        * pose proof (lr_links _ _ _ _ _ _ Rm) as C. apply chain_nonempty in C; [tauto|done].
      + split; [|done]. destruct (Y _ B1) as (Y1 & Y2 & Y3 & Y4 & Y5 & Y6). rewrite I5 by done. rewrite G2. destruct m; done. }
  assert (RR : lrep n4 p4 v (<[r := Z.of_nat (length l)]> (<[h := Z.of_nat (length m)]> g)) r l).
  { split; [|by apply Rm|by apply Rl|by rewrite lookup_insert by done].
    destruct (Bl r) as [(B1 & B2 & ->)|(B1 & B2 & B3)].
    - cbn. rewrite B1 in I3. rewrite B2 in I1. by repeat split.
    - apply chain_nonempty; [done|].
      assert (Y : forall z, z ∈ locs l -> z <> H r /\ z <> H h /\ z <> before r m /\ z <> behind r m /\ z <> before h m /\ z <> behind h m).
      { intros z Hz. assert (z <> H r /\ z <> H h) as [Z1 Z2] by (split; intros ->; by apply locs_H in Hz).
        split; [done|]. split; [done|]. repeat split; intros ->;
          destruct (Bm h) as [(? & ? & _)|(? & ? & _)], (Bm r) as [(? & ? & _)|(? & ? & _)]; first [congruence|match goal with X1 : ?w ∈ locs m, X2 : ?w ∈ locs l |- _ => exact (Dis w X2 X1) end]. }
      split; [|split].
      + split; [done|]. rewrite I4. destruct l; done.
      + apply (inner_frame n p n4 p4 r); [done| | |].
        * intros z Hz Hz'. destruct (Y _ Hz) as (Y1 & Y2 & Y3 & Y4 & Y5 & Y6). apply En; try done. by rewrite (before_any h r).
        * intros z Hz Hz'. destruct (Y _ Hz) as (Y1 & Y2 & Y3 & Y4 & Y5 & Y6). apply Ep; try done. by rewrite (behind_any h r).
        * pose proof (lr_links _ _ _ _ _ _ Rl) as C. apply chain_nonempty in C; [tauto|done].
      + split; [|done]. rewrite I2. destruct l; done. }
  (* the other lists *)
  assert (LU : forall y e, <[r := l]> (<[h := m]> W) !! y = Some e -> (y = r /\ e = l) \/ (y = h /\ e = m) \/ (y <> r /\ y <> h /\ W !! y = Some e)).
  { intros y e. destruct (decide (y = r)) as [->|Yr]; [rewrite lookup_insert; intros [= <-]; auto|]. rewrite lookup_insert_ne by done.
    destruct (decide (y = h)) as [->|Yh]; [rewrite lookup_insert; intros [= <-]; auto|]. rewrite lookup_insert_ne by done. auto. }
  split.
  - intros y e He. destruct (LU y e He) as [[-> ->]|[[-> ->]|(Yr & Yh & Hy)]]; [done|done|].
    pose proof (r_rep _ _ _ _ _ _ R _ _ Hy) as Ry. destruct Ry as [Q1 Q2 Q3 Q4].
    assert (Rg : lrep n p v (<[r := Z.of_nat (length l)]> (<[h := Z.of_nat (length m)]> g)) y e).
    { split; [done|done|done|by rewrite !lookup_insert_ne]. }
    apply (lrep_frame n p); [|done].
    intros z Hz. apply Out.
    + intros ->. apply elem_of_cons in Hz as [[= ->]|Hz]; [done|by apply locs_H in Hz].
    + intros ->. apply elem_of_cons in Hz as [[= ->]|Hz]; [done|by apply locs_H in Hz].
    + intros Hz'. destruct z as [u|i]; [by apply locs_H in Hz'|]. apply elem_of_cons in Hz as [?|Hz]; [done|]. rewrite locs_in in Hz, Hz'.
      apply Yh. exact (r_disj _ _ _ _ _ _ R _ _ _ _ _ Hy Hl Hz Hz').
    + intros Hz'. destruct z as [u|i]; [by apply locs_H in Hz'|]. apply elem_of_cons in Hz as [?|Hz]; [done|]. rewrite locs_in in Hz, Hz'.
      apply Yr. exact (r_disj _ _ _ _ _ _ R _ _ _ _ _ Hy Hm Hz Hz').
  - intros y e He. destruct (LU y e He) as [[-> ->]|[[-> ->]|(Yr & Yh & Hy)]]; [done|done|exact (r_nodup _ _ _ _ _ _ R _ _ Hy)].
  - intros y e i He Hi. destruct (LU y e He) as [[-> ->]|[[-> ->]|(Yr & Yh & Hy)]];
      [exact (r_lt _ _ _ _ _ _ R _ _ _ Hl Hi)|exact (r_lt _ _ _ _ _ _ R _ _ _ Hm Hi)|exact (r_lt _ _ _ _ _ _ R _ _ _ Hy Hi)].
  - intros y1 y2 e1 e2 i He1 He2 Hi1 Hi2.
    destruct (LU y1 e1 He1) as [[-> ->]|[[-> ->]|(Yr & Yh & Hy)]], (LU y2 e2 He2) as [[-> ->]|[[-> ->]|(Yr2 & Yh2 & Hy2)]]; try done.
    + exfalso. apply Hne. exact (r_disj _ _ _ _ _ _ R _ _ _ _ _ Hl Hm Hi1 Hi2).
    + exfalso. apply Yh2. exact (r_disj _ _ _ _ _ _ R _ _ _ _ _ Hy2 Hl Hi2 Hi1).
    + exfalso. apply Hne. exact (r_disj _ _ _ _ _ _ R _ _ _ _ _ Hl Hm Hi2 Hi1).
    + exfalso. apply Yr2. exact (r_disj _ _ _ _ _ _ R _ _ _ _ _ Hy2 Hm Hi2 Hi1).
    + exfalso. apply Yh. exact (r_disj _ _ _ _ _ _ R _ _ _ _ _ Hy Hl Hi1 Hi2).
    + exfalso. apply Yr. exact (r_disj _ _ _ _ _ _ R _ _ _ _ _ Hy Hm Hi1 Hi2).
    + exact (r_disj _ _ _ _ _ _ R _ _ _ _ _ Hy Hy2 Hi1 Hi2).
  - intros i Hi. destruct (r_node _ _ _ _ _ _ R i Hi) as (y & e & Hy & He).
    destruct (decide (y = h)) as [->|Yh].
    + exists r, l. rewrite lookup_insert. split; [done|]. congruence.
    + destruct (decide (y = r)) as [->|Yr].
      * exists h, m. rewrite lookup_insert_ne, lookup_insert by done. split; [done|]. congruence.
      * exists y, e. by rewrite !lookup_insert_ne.
  - intros y Hy. apply (r_head _ _ _ _ _ _ R). destruct (decide (y = r)) as [->|Yr]; [by rewrite lookup_insert in Hy|].
    rewrite lookup_insert_ne in Hy by done. destruct (decide (y = h)) as [->|Yh]; [by rewrite lookup_insert in Hy|].
    by rewrite lookup_insert_ne in Hy.
  - intros y Hy. destruct (decide (y = r)) as [->|Yr]; [by rewrite lookup_insert in Hy|].
    rewrite lookup_insert_ne in Hy by done. destruct (decide (y = h)) as [->|Yh]; [by rewrite lookup_insert in Hy|].
    rewrite lookup_insert_ne in Hy by done. rewrite !lookup_insert_ne by done. by apply (r_size _ _ _ _ _ _ R).
Qed.
End more.
