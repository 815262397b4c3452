(** Clear, destruction, writes, copies, moves and assignments preserve the representation. *)
From stdpp Require Import gmap list.
From Coq Require Import ZArith Lia.
From Verif Require Import Base ListModel ListSpec ListProofs ListOps ListMore.
Local Open Scope outcome_scope.

Section whole.
Context {A : Type}.
Notation heap := (heap A).
Notation seq := (list (nat * A)).
Notation links_t := (loc -> option (option loc)).
Implicit Types (s t : heap) (W : gmap nat seq).

Lemma get_next_ok lax s a q n p v g k : sees s n p v g k -> n a = Some (Some q) -> get_next (A := A) lax a s = Ok (Some q).
Proof.
  intros Sn E. assert (V : is_Some (v a)).
  { rewrite <- (see_vl _ _ _ _ _ _ Sn). apply (nx_vl s a (Some q)). by rewrite (see_nx _ _ _ _ _ _ Sn). }
  destruct (read_ok _ a _ _ _ _ _ Sn V) as (c & Hc & Hn & _). unfold get_next. rewrite Hc. cbn [obind].
  rewrite E in Hn. injection Hn as Hn. by rewrite <- Hn.
Qed.
Lemma get_prv_ok lax s a q n p v g k : sees s n p v g k -> p a = Some (Some q) -> get_prv (A := A) lax a s = Ok (Some q).
Proof.
  intros Sn E. assert (V : is_Some (v a)).
  { rewrite <- (see_vl _ _ _ _ _ _ Sn). apply (pv_vl s a (Some q)). by rewrite (see_pv _ _ _ _ _ _ Sn). }
  destruct (read_ok _ a _ _ _ _ _ Sn V) as (c & Hc & _ & Hp & _). unfold get_prv. rewrite Hc. cbn [obind].
  rewrite E in Hp. injection Hp as Hp. by rewrite <- Hp.
Qed.
Lemma before_app x (m m2 : seq) : m2 <> [] -> before x (m ++ m2) = before x m2.
Proof. destruct m2 as [|e m2 _] using rev_ind; [done|]. intros _. by rewrite app_assoc, !before_snoc. Qed.

Lemma clear_ok W k s x l fuel : repr W k s -> W !! x = Some l -> length l <= fuel ->
  exists t, clear true fuel x s = Ok t /\ repr (<[x := []]> W) k t.
Proof.
  intros R0 Hx Hf. unfold clear. rewrite (repr_empty _ _ _ _ _ R0 Hx). cbn [obind].
  destruct (decide (l = [])) as [->|Hne]; [exists s; split; [done|]; by rewrite insert_id|].
  replace (match l with [] => true | _ => false end) with false by (by destruct l).
  destruct R0 as (n & p & v & g & Sn & R).
  pose proof (r_nodup _ _ _ _ _ _ R _ _ Hx) as ND.
  destruct (around _ _ _ _ _ _ _ [] l R Hx) as (A1 & A2 & A3 & A4 & A5).
  destruct (around _ _ _ _ _ _ _ l [] R ltac:(by rewrite app_nil_r)) as (B1 & B2 & B3 & B4 & _).
  rewrite before_nil in *. change (behind x []) with (H x) in *. cbn [app] in A5.
  assert (Hb : before x l <> H x) by (intros E; pose proof (before_loc x l Hne) as Q; rewrite E in Q; by apply locs_H in Q).
  assert (Hh : behind x l <> H x) by (intros E; pose proof (behind_loc x l Hne) as Q; rewrite E in Q; by apply locs_H in Q).
  assert (Hfst : Some (behind x l) = head (locs l)) by (by destruct l).
  rewrite (get_next_ok _ _ _ _ _ _ _ _ _ Sn A1). cbn [obind]. rewrite (get_prv_ok _ _ _ _ _ _ _ _ _ Sn B2). cbn [obind].
  destruct (unlink_prv_some s (H x) (before x l) _ _ _ _ _ Sn B2 A3 B3) as (s1 & E1 & S1). rewrite E1. cbn [obind].
  destruct (unlink_next_ok s1 (H x) (behind x l) _ _ _ _ _ S1) as (s2 & E2 & S2); [by upds|done|done|]. rewrite E2. cbn [obind].
  destruct (link_next_null s2 (H x) (H x) _ _ _ _ _ S2) as (s3 & E3 & S3); [by upds|done|done|]. rewrite E3. cbn [obind].
  destruct (link_prv_some s3 (H x) (H x) (H x) _ _ _ _ _ S3) as (s4 & E4 & S4); [by upds|done|done|done|]. rewrite E4. cbn [obind].
  rewrite Hfst.
  destruct (clear_loop_ok l s4 _ _ _ _ _ fuel S4 ND) as (s5 & n' & p' & v' & E5 & S5 & D1 & D2).
  - intros m1 e m2 ->. upds. destruct m2 as [|f m2].
    + rewrite before_snoc. by upds.
    + rewrite upd_ne.
      * assert (Hx2 : W !! x = Some ((m1 ++ [e]) ++ f :: m2)) by (rewrite Hx; f_equal; by rewrite <- app_assoc).
        destruct (around _ _ _ _ _ _ _ _ _ R Hx2) as (C1 & _). by rewrite before_snoc in C1.
      * change (e :: f :: m2) with ([e] ++ f :: m2). rewrite app_assoc, before_app by done.
        intros E. pose proof (before_loc x (f :: m2) ltac:(done)) as Q. rewrite <- E in Q. apply locs_in in Q.
        rewrite ids_app in ND. apply NoDup_app in ND as (_ & _ & ND). apply NoDup_cons in ND as [ND _]. done.
  - intros z Hz. apply (links_in _ _ _ _ _ _ z (r_rep _ _ _ _ _ _ R _ _ Hx)). by apply elem_of_list_further.
  - done.
  - rewrite E5. cbn [obind]. destruct (set_size_ok s5 x 0 _ _ _ _ _ _ S5 A5) as (s6 & E6 & S6).
    exists s6. split; [done|]. eexists _, _, _, _. split; [exact S6|].
    assert (Hx' : W !! x = Some ([] ++ l ++ [])) by (by rewrite app_nil_r).
    assert (HH : H x ∉ locs l) by apply locs_H. destruct (D1 _ HH) as (F1 & F2 & F3).
    apply (cut W k n p v g x [] l []); try done; rewrite ?before_nil; change (behind x []) with (H x).
    + rewrite F1. by upds.
    + rewrite F2. by upds.
    + intros z Hz Hz'. destruct (D1 _ Hz) as (-> & _ & _). upds. apply upd_ne. intros ->. by apply Hz, before_loc.
    + intros z Hz Hz'. destruct (D1 _ Hz) as (_ & -> & _). upds. rewrite upd_ne; [by upds|]. intros ->. by apply Hz, behind_loc.
    + intros z Hz. by destruct (D1 _ Hz) as (_ & _ & ->).
Qed.

Lemma destroy_ok W k s x l fuel : repr W k s -> W !! x = Some l -> length l <= fuel ->
  exists t, list_destroy true fuel x s = Ok t /\ repr (delete x W) k t.
Proof.
  intros R0 Hx Hf. destruct (clear_ok W k s x l fuel R0 Hx Hf) as (t & E & n & p & v & g & Sn & R).
  unfold list_destroy. rewrite E. cbn [obind]. eexists. split; [reflexivity|].
  exists (upd n (H x) None), (upd p (H x) None), (upd v (H x) None), (delete x g). split.
  { split; cbn [sizes made].
    - intros z. unfold nxl, upd. cbn [cells]. destruct (decide (z = H x)) as [->|Hz]; [by rewrite lookup_delete|].
      rewrite lookup_delete_ne by done. apply Sn.
    - intros z. unfold pvl, upd. cbn [cells]. destruct (decide (z = H x)) as [->|Hz]; [by rewrite lookup_delete|].
      rewrite lookup_delete_ne by done. apply Sn.
    - intros z. unfold vll, upd. cbn [cells]. destruct (decide (z = H x)) as [->|Hz]; [by rewrite lookup_delete|].
      rewrite lookup_delete_ne by done. apply Sn.
    - by rewrite (see_sizes _ _ _ _ _ _ Sn).
    - apply Sn. }
  assert (L : forall y m, delete x W !! y = Some m -> y <> x /\ <[x := []]> W !! y = Some m).
  { intros y m Hy. apply lookup_delete_Some in Hy as [Hy1 Hy2]. split; [done|]. by rewrite lookup_insert_ne. }
  split.
  - intros y m Hy. destruct (L _ _ Hy) as [Hne Hy']. destruct (r_rep _ _ _ _ _ _ R _ _ Hy') as [Q1 Q2 Q3 Q4]. split.
    + apply (links_frame n p); [| |done]; intros z Hz; apply upd_ne; intros ->.
      * apply elem_of_cons in Hz as [[= ->]|Hz]; [done|by apply locs_H in Hz].
      * apply elem_of_app in Hz as [Hz|Hz]; [by apply locs_H in Hz|]. apply elem_of_list_singleton in Hz as [= ->]. done.
    + rewrite upd_ne; [done|congruence].
    + intros i d Hi. rewrite upd_ne by done. by apply Q3.
    + by rewrite lookup_delete_ne.
  - intros y m Hy. destruct (L _ _ Hy) as [Hne Hy']. exact (r_nodup _ _ _ _ _ _ R _ _ Hy').
  - intros y m i Hy Hi. destruct (L _ _ Hy) as [Hne Hy']. exact (r_lt _ _ _ _ _ _ R _ _ _ Hy' Hi).
  - intros y1 y2 m1 m2 i Hy1 Hy2. destruct (L _ _ Hy1) as [_ Hy1']. destruct (L _ _ Hy2) as [_ Hy2'].
    exact (r_disj _ _ _ _ _ _ R _ _ _ _ _ Hy1' Hy2').
  - intros i Hi. rewrite upd_ne in Hi by done. destruct (r_node _ _ _ _ _ _ R i Hi) as (y & m & Hy & Him).
    destruct (decide (y = x)) as [->|Hne].
    + rewrite lookup_insert in Hy. injection Hy as <-. by apply elem_of_nil in Him.
    + rewrite lookup_insert_ne in Hy by done. exists y, m. by rewrite lookup_delete_ne.
  - intros y Hy. destruct (decide (y = x)) as [->|Hne]; [by upds|]. rewrite lookup_delete_ne in Hy by done. rewrite upd_ne by congruence.
    apply (r_head _ _ _ _ _ _ R). by rewrite lookup_insert_ne.
  - intros y Hy. destruct (decide (y = x)) as [->|Hne]; [by rewrite lookup_delete|]. rewrite lookup_delete_ne in Hy by done.
    rewrite lookup_delete_ne by done. apply (r_size _ _ _ _ _ _ R). by rewrite lookup_insert_ne.
Qed.

Lemma write_ok W k s x l1 e l2 (a : A) : repr W k s -> W !! x = Some (l1 ++ e :: l2) ->
  exists t, set_value (N (fst e)) a s = Ok t /\ repr (<[x := l1 ++ (fst e, a) :: l2]> W) k t.
Proof.
  intros (n & p & v & g & Sn & R) Hx. pose proof (r_rep _ _ _ _ _ _ R _ _ Hx) as [Q1 Q2 Q3 Q4].
  pose proof (r_nodup _ _ _ _ _ _ R _ _ Hx) as ND.
  assert (Ve : v (N (fst e)) = Some (Some (snd e))).
  { apply Q3. destruct e as [i d]. apply elem_of_app. right. apply elem_of_list_here. }
  destruct (set_value_ok s (N (fst e)) a (snd e) _ _ _ _ _ Sn Ve) as (t & E & St). exists t. split; [done|].
  eexists _, _, _, _. split; [exact St|].
  assert (Ei : ids (l1 ++ (fst e, a) :: l2) = ids (l1 ++ e :: l2)) by (by rewrite !ids_app).
  assert (El : locs (l1 ++ (fst e, a) :: l2) = locs (l1 ++ e :: l2)) by (unfold locs; by rewrite Ei).
  assert (Eln : length (l1 ++ (fst e, a) :: l2) = length (l1 ++ e :: l2)) by (by rewrite !app_length).
  apply (rel_change W k n p v g x (l1 ++ e :: l2)); rewrite ?Ei; try done.
  - split; [by rewrite El| | |by rewrite Eln].
    + rewrite upd_ne; done.
    + rewrite ids_app in ND. apply NoDup_app in ND as (_ & D & ND2). apply NoDup_cons in ND2 as [ND2 _].
      intros i d Hi. apply elem_of_app in Hi as [Hi|Hi]; [|apply elem_of_cons in Hi as [[= -> ->]|Hi]].
      * rewrite upd_ne; [apply Q3, elem_of_app; auto|]. intros [= ->]. apply (D (fst e) (in_ids _ _ _ Hi)). apply elem_of_list_here.
      * by upds.
      * rewrite upd_ne; [apply Q3, elem_of_app; right; by apply elem_of_list_further|]. intros [= ->]. apply ND2. exact (in_ids _ _ _ Hi).
  - auto.
  - intros z Hz1 Hz2 _. split; [done|]. split; [done|]. apply upd_ne. intros ->. apply Hz2. rewrite locs_app. apply elem_of_app. right. apply elem_of_list_here.
  - intros i [Hi|Hi] Hi'; [done|lia].
Qed.

Lemma number_length k (l : list A) : length (number k l) = length l.
Proof. revert k. induction l as [|a l IH]; intros k; [done|]. cbn. by rewrite IH. Qed.

Lemma push_all_ok W k s x l m : repr W k s -> W !! x = Some m ->
  exists t, push_all x l s = Ok t /\ repr (<[x := m ++ number k l]> W) (k + length l) t.
Proof.
  revert W k s m. induction l as [|a l IH]; intros W k s m R Hx.
  - exists s. split; [done|]. cbn. rewrite app_nil_r, Nat.add_0_r. by rewrite insert_id.
  - destruct (emplace_back_ok W k s x m a R Hx) as (t & E & Rt). cbn [push_all]. rewrite E. cbn [obind].
    destruct (IH _ _ _ (m ++ [(k, a)]) Rt) as (u & Eu & Ru); [apply lookup_insert|]. exists u. split; [done|].
    cbn [number length]. rewrite insert_insert in Ru. rewrite <- app_assoc in Ru. by replace (k + S (length l)) with (S k + length l) by lia.
Qed.
Lemma init_ok W k s x l : repr W k s -> W !! x = None ->
  exists t, list_init x l s = Ok t /\ repr (<[x := number k l]> W) (k + length l) t.
Proof.
  intros R Hx. destruct (new_ok W k s x R Hx) as (t & E & Rt). unfold list_init. rewrite E. cbn [obind].
  destruct (push_all_ok _ _ _ x l [] Rt) as (u & Eu & Ru); [apply lookup_insert|]. exists u. split; [done|].
  by rewrite insert_insert in Ru.
Qed.

Lemma repr_next lax W k s x l1 e l2 : repr W k s -> W !! x = Some (l1 ++ e :: l2) -> next lax (N (fst e)) s = Ok (behind x l2).
Proof.
  intros (n & p & v & g & Sn & R) Hx. assert (Hx' : W !! x = Some ((l1 ++ [e]) ++ l2)) by (by rewrite <- app_assoc).
  destruct (around _ _ _ _ _ _ _ _ _ R Hx') as (C & _). rewrite before_snoc in C. exact (next_ok lax _ _ _ _ _ _ _ _ Sn C).
Qed.
Lemma repr_prev lax W k s x l1 l2 : repr W k s -> W !! x = Some (l1 ++ l2) -> prev lax (behind x l2) s = Ok (before x l1).
Proof.
  intros (n & p & v & g & Sn & R) Hx.
  destruct (around _ _ _ _ _ _ _ _ _ R Hx) as (_ & C & _). exact (prev_ok lax _ _ _ _ _ _ _ _ Sn C).
Qed.
Lemma repr_begin lax W k s x l : repr W k s -> W !! x = Some l -> list_begin lax x s = Ok (behind x l).
Proof.
  intros (n & p & v & g & Sn & R) Hx.
  destruct (around _ _ _ _ _ _ _ [] l R Hx) as (C & _). exact (next_ok lax _ _ _ _ _ _ _ _ Sn C).
Qed.
Lemma repr_value W k s x l1 e l2 : repr W k s -> W !! x = Some (l1 ++ e :: l2) -> value (N (fst e)) s = Ok (snd e).
Proof.
  intros (n & p & v & g & Sn & R) Hx. apply (value_ok _ _ _ _ _ _ _ _ Sn).
  apply (lr_val _ _ _ _ _ _ (r_rep _ _ _ _ _ _ R _ _ Hx)). destruct e as [i d]. apply elem_of_app. right. apply elem_of_list_here.
Qed.

Lemma copy_loop_ok lax h r l2 : forall W k s m l1 fuel, repr W k s -> h <> r -> W !! h = Some m -> W !! r = Some (l1 ++ l2) ->
  length l2 < fuel ->
  exists t, copy_loop lax fuel h (behind r l2) (H r) s = Ok t /\
    repr (<[h := m ++ number k (snd <$> l2)]> W) (k + length l2) t.
Proof.
  induction l2 as [|e l2 IH]; intros W k s m l1 fuel R Hne Hh Hr Hf; (destruct fuel as [|fuel]; [cbn in Hf; lia|]); cbn [copy_loop].
  - change (behind r []) with (H r). rewrite decide_True by done. exists s. split; [done|].
    cbn. rewrite app_nil_r, Nat.add_0_r. by rewrite insert_id.
  - rewrite behind_cons, decide_False by done. rewrite (repr_value _ _ _ _ _ _ _ R Hr). cbn [obind].
    destruct (emplace_back_ok W k s h m (snd e) R Hh) as (t & E & Rt). rewrite E. cbn [obind].
    assert (Hr' : <[h:=m ++ [(k, snd e)]]> W !! r = Some (l1 ++ e :: l2)) by (by rewrite lookup_insert_ne).
    rewrite (repr_next lax _ _ _ _ _ _ _ Rt Hr'). cbn [obind].
    destruct (IH _ _ _ (m ++ [(k, snd e)]) (l1 ++ [e]) fuel Rt Hne) as (u & Eu & Ru).
    + apply lookup_insert.
    + rewrite Hr'. f_equal. by rewrite <- app_assoc.
    + cbn in Hf. lia.
    + exists u. split; [done|]. rewrite insert_insert, <- app_assoc in Ru. cbn [fmap list_fmap number length].
      by replace (k + S (length l2)) with (S k + length l2) by lia.
Qed.
Lemma copy_ok lax W k s h r l fuel : repr W k s -> W !! h = None -> W !! r = Some l -> length l < fuel ->
  exists t, list_copy lax fuel h r s = Ok t /\ repr (<[h := number k (snd <$> l)]> W) (k + length l) t.
Proof.
  intros R Hh Hr Hf. assert (Hne : h <> r) by congruence. destruct (new_ok W k s h R Hh) as (t & E & Rt).
  unfold list_copy. rewrite E. cbn [obind]. assert (Hr' : <[h := []]> W !! r = Some l) by (by rewrite lookup_insert_ne).
  rewrite (repr_begin lax _ _ _ _ _ Rt Hr'). cbn [obind].
  destruct (copy_loop_ok lax h r l _ _ _ [] [] fuel Rt Hne) as (u & Eu & Ru); [apply lookup_insert|done|done|].
  exists u. split; [done|]. by rewrite insert_insert in Ru.
Qed.
Lemma move_ok lax W k s h r l : repr W k s -> W !! h = None -> W !! r = Some l ->
  exists t, list_move lax h r s = Ok t /\ repr (<[h := l]> (<[r := []]> W)) k t.
Proof.
  intros R Hh Hr. assert (Hne : h <> r) by congruence. destruct (new_ok W k s h R Hh) as (t & E & Rt).
  unfold list_move. rewrite E. cbn [obind].
  destruct (swap_ok lax _ _ _ r h l [] Rt) as (u & Eu & Ru); [by rewrite lookup_insert_ne|apply lookup_insert|done|].
  exists u. split; [done|].
  assert (EW : <[h := l]> (<[r := []]> (<[h := []]> W)) = <[h := l]> (<[r := []]> W)).
  { apply map_eq. intros y. destruct (decide (y = h)) as [->|]; [by rewrite !lookup_insert|]. rewrite !(lookup_insert_ne _ h) by done.
    destruct (decide (y = r)) as [->|]; [by rewrite !lookup_insert|]. rewrite !lookup_insert_ne by done. done. }
  by rewrite EW in Ru.
Qed.
Lemma assign_copy_ok W k s h r l0 l fuel : repr W k s -> W !! 0 = None -> W !! h = Some l0 -> W !! r = Some l -> k < fuel ->
  exists t, assign_copy true fuel h r s = Ok t /\ repr (<[h := number k (snd <$> l)]> W) (k + length l) t.
Proof.
  intros R H0 Hh Hr Hf. assert (Hne : h <> 0) by congruence.
  pose proof (repr_length _ _ _ _ _ R Hh). pose proof (repr_length _ _ _ _ _ R Hr).
  destruct (copy_ok true W k s 0 r l fuel R H0 Hr ltac:(lia)) as (t & E & Rt). unfold assign_copy. rewrite E. cbn [obind].
  destruct (swap_ok true _ _ _ 0 h (number k (snd <$> l)) l0 Rt) as (u & Eu & Ru); [apply lookup_insert|by rewrite lookup_insert_ne|done|].
  rewrite Eu. cbn [obind].
  destruct (destroy_ok _ _ _ 0 l0 fuel Ru) as (w & Ew & Rw); [by rewrite lookup_insert_ne, lookup_insert|lia|].
  exists w. split; [done|].
  match type of Rw with repr ?X _ _ => replace X with (<[h := number k (snd <$> l)]> W) in Rw; [done|] end.
  apply map_eq. intros y. destruct (decide (y = 0)) as [->|].
  - rewrite lookup_delete, lookup_insert_ne; done.
  - rewrite lookup_delete_ne by done. destruct (decide (y = h)) as [->|]; [by rewrite !lookup_insert|]. by rewrite !lookup_insert_ne.
Qed.
Lemma assign_move_ok W k s h r l0 l fuel : repr W k s -> W !! 0 = None -> W !! h = Some l0 -> W !! r = Some l -> k < fuel ->
  exists t, assign_move true fuel h r s = Ok t /\ repr (<[h := l]> (<[r := []]> W)) k t.
Proof.
  intros R H0 Hh Hr Hf. assert (Hne : h <> 0) by congruence. assert (Hrne : r <> 0) by congruence.
  pose proof (repr_length _ _ _ _ _ R Hh).
  destruct (move_ok true W k s 0 r l R H0 Hr) as (t & E & Rt). unfold assign_move. rewrite E. cbn [obind].
  assert (Hh' : exists l1, <[0 := l]> (<[r := []]> W) !! h = Some l1 /\ length l1 <= fuel).
  { rewrite lookup_insert_ne by done. destruct (decide (h = r)) as [->|]; [exists []; rewrite lookup_insert; split; [done|cbn; lia]|].
    rewrite lookup_insert_ne by done. exists l0. split; [done|lia]. }
  destruct Hh' as (l1 & Hl1 & Hf1).
  destruct (swap_ok true _ _ _ 0 h l l1 Rt) as (u & Eu & Ru); [apply lookup_insert|done|done|].
  rewrite Eu. cbn [obind].
  destruct (destroy_ok _ _ _ 0 l1 fuel Ru) as (w & Ew & Rw); [by rewrite lookup_insert_ne, lookup_insert|lia|].
  exists w. split; [done|].
  match type of Rw with repr ?X _ _ => replace X with (<[h := l]> (<[r := []]> W)) in Rw; [done|] end.
  apply map_eq. intros y. destruct (decide (y = 0)) as [->|].
  - rewrite lookup_delete, !lookup_insert_ne; done.
  - rewrite lookup_delete_ne by done. destruct (decide (y = h)) as [->|]; [by rewrite !lookup_insert|]. by rewrite !(lookup_insert_ne _ h), !(lookup_insert_ne _ 0) by done.
Qed.
End whole.
