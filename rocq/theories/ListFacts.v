(** The facts about lists stated in PropertiesList. *)
From stdpp Require Import gmap list.
From Coq Require Import ZArith Lia.
From Verif Require Import Base ListModel ListSpec ListProofs ListOps ListMore ListWhole ListRun.
Local Open Scope outcome_scope.

Section facts.
Context {A : Type}.
Notation heap := (heap A).
Notation seq := (list (nat * A)).
Notation env := (gmap nat loc).
Implicit Types (s t : heap) (w : world A) (cs : list (lcmd A)).

(** State [w] of the specification and memory [s] with iterators [e] after the program [cs]. *)
Definition reached cs w (e : env) s : Prop := srun world0 cs = Some w /\ lrun true (∅, heap0) cs = Ok (e, s).
Lemma reached_related cs w e s : reached cs w e s -> related e s w.
Proof.
  intros [E1 E2]. destruct (run_ok cs _ _ _ _ related0 E1) as (e' & s' & E & R). rewrite E in E2. by injection E2 as <- <-.
Qed.

Lemma history cs w : srun world0 cs = Some w ->
  exists e s, lrun true (∅, heap0) cs = Ok (e, s) /\
  (forall x l, seqs w !! x = Some l -> shows true s x (snd <$> l)) /\
  (forall i, is_Some (cells s !! N i) <-> exists x l, seqs w !! x = Some l /\ i ∈ (fst <$> l)).
Proof.
  intros E. destruct (run_ok cs _ _ _ _ related0 E) as (e & s & Er & R). exists e, s. split; [done|]. pose proof (rl_repr _ _ _ R) as Rs.
  split; [intros x l Hx; exact (shows_ok true _ _ _ _ _ Rs Hx)|]. intros i. exact (repr_cells _ _ _ _ Rs).
Qed.
Lemma no_leak cs w e s : reached cs w e s -> seqs w = ∅ -> cells s = ∅ /\ sizes s = ∅.
Proof. intros R E. apply reached_related in R as [R _ _]. rewrite E in R. exact (repr_empty_cells _ _ R). Qed.

(** One list from another by assignment does not share nodes: all identities are different. *)
Lemma apart cs w e s : reached cs w e s -> (forall x l, seqs w !! x = Some l -> NoDup (fst <$> l)) /\
  (forall x y l m i, seqs w !! x = Some l -> seqs w !! y = Some m -> i ∈ (fst <$> l) -> i ∈ (fst <$> m) -> x = y).
Proof.
  intros R. apply reached_related in R as [(n & p & v & g & Sn & R) _ _]. split.
  - intros x l Hx. exact (r_nodup _ _ _ _ _ _ R _ _ Hx).
  - intros x y l m i Hx Hy. exact (r_disj _ _ _ _ _ _ R _ _ _ _ _ Hx Hy).
Qed.

Lemma equality (eqb : A -> A -> bool) cs w e s x y l m lax fuel : (forall a b, eqb a b = true <-> a = b) ->
  reached cs w e s -> seqs w !! x = Some l -> seqs w !! y = Some m ->
  (Z.of_nat (length l) < 2 ^ 31)%Z -> length l < fuel ->
  exists r, list_eq lax eqb fuel x y s = Ok r /\ (r = true <-> snd <$> l = snd <$> m).
Proof.
  intros He R Hx Hy Hb Hf. apply reached_related in R as [R _ _]. eexists. split; [exact (list_eq_ok lax eqb _ _ _ _ _ _ _ _ R Hx Hy Hb Hf)|].
  clear - He. rewrite andb_true_iff, Nat.eqb_eq. revert m. induction l as [|a l IH]; intros [|b m]; cbn; [split; [done|split; done]|split; [intros [? _]; lia|done]|split; [intros [? _]; lia|done]|].
  rewrite andb_true_iff, He. specialize (IH m). split.
  - intros [H1 [H2 H3]]. f_equal; [done|]. apply IH. split; [lia|done].
  - intros [= H1 H2]. apply IH in H2 as [H2 H3]. split; [lia|]. done.
Qed.

(** ** clear() without tolerance for the call through a null pointer *)
Lemma clear_loop_null (l : seq) : forall s n p v g k fuel,
  sees s n p v g k -> NoDup (ids l) -> l <> [] ->
  (forall m1 e m2, l = m1 ++ e :: m2 -> n (N (fst e)) = Some (head (locs m2))) ->
  (forall z, z ∈ locs l -> is_Some (v z)) -> length l <= fuel ->
  clear_loop (A := A) false fuel (head (locs l)) s = UB.
Proof.
  induction l as [|e l IH]; intros s n p v g k fuel Sn ND Hne Hn Hv Hf; [done|].
  rewrite locs_cons. destruct fuel as [|fuel]; [cbn in Hf; lia|]. cbn [clear_loop head].
  assert (V : is_Some (v (N (fst e)))) by (apply Hv; rewrite locs_cons; apply elem_of_list_here).
  unfold get_next. destruct (read_ok _ (N (fst e)) _ _ _ _ _ Sn V) as (c & -> & Hc & _).
  rewrite (Hn [] e l eq_refl) in Hc. injection Hc as Hc. cbn [obind]. rewrite <- Hc.
  destruct l as [|f l]; [done|]. change (head (locs (f :: l))) with (Some (N (fst f))). cbn [on_null obind].
  destruct (destory_ok s (fst e) _ _ _ _ _ Sn V) as (u & E & Su).
  rewrite E. cbn [obind]. unfold ids in ND. cbn in ND. apply NoDup_cons in ND as [ND1 ND2].
  assert (Ne : N (fst e) ∉ locs (f :: l)) by (rewrite locs_in; done).
  apply (IH u _ _ _ _ _ fuel Su); [done|done| | |cbn in Hf |- *; lia].
  - intros m1 h m2 El. rewrite upd_ne; [apply (Hn (e :: m1)); cbn; by rewrite El|]. intros [= E']. apply ND1.
    change (fst e ∈ ids (f :: l)). rewrite El, ids_app. apply elem_of_app. right. unfold ids. cbn. rewrite E'. apply elem_of_list_here.
  - intros z Hz. rewrite upd_ne; [apply Hv; rewrite locs_cons; by apply elem_of_list_further|]. intros ->. done.
Qed.
Lemma clear_null W k s x l fuel : repr W k s -> W !! x = Some l -> l <> [] -> length l <= fuel -> clear false fuel x s = UB.
Proof.
  intros R0 Hx Hne Hf. unfold clear. rewrite (repr_empty _ _ _ _ _ R0 Hx). cbn [obind].
  replace (match l with [] => true | _ => false end) with false by (by destruct l).
  destruct R0 as (n & p & v & g & Sn & R).
  pose proof (r_nodup _ _ _ _ _ _ R _ _ Hx) as ND.
  destruct (around _ _ _ _ _ _ _ [] l R Hx) as (A1 & A2 & A3 & A4 & A5).
  destruct (around _ _ _ _ _ _ _ l [] R ltac:(by rewrite app_nil_r)) as (B1 & B2 & B3 & B4 & _).
  rewrite before_nil in *. change (behind x []) with (H x) in *. cbn [app] in A5.
  assert (Hb : before x l <> H x) by (intros E; pose proof (before_loc x l Hne) as Q; rewrite E in Q; by apply locs_H in Q).
  assert (Hh : behind x l <> H x) by (intros E; pose proof (behind_loc x l Hne) as Q; rewrite E in Q; by apply locs_H in Q).
  assert (Hfst : Some (behind x l) = head (locs l)) by (by destruct l).
  rewrite (get_next_ok _ _ _ _ _ _ _ _ _ Sn A1). cbn [obind]. rewrite (get_prv_ok _ _ _ _ _ _ _ _ _ Sn B2). cbn [obind].
  destruct (unlink_prv_some s (H x) (before x l) _ _ _ _ _ Sn B2 A3 B3) as (s1 & E1 & S1). rewrite E1. cbn [obind].
  destruct (unlink_next_ok s1 (H x) (behind x l) _ _ _ _ _ S1) as (s2 & E2 & S2); [by upds|done|done|]. rewrite E2. cbn [obind].
  destruct (link_next_null s2 (H x) (H x) _ _ _ _ _ S2) as (s3 & E3 & S3); [by upds|done|done|]. rewrite E3. cbn [obind].
  destruct (link_prv_some s3 (H x) (H x) (H x) _ _ _ _ _ S3) as (s4 & E4 & S4); [by upds|done|done|done|]. rewrite E4. cbn [obind].
  rewrite Hfst. rewrite (clear_loop_null l s4 _ _ _ _ _ fuel S4 ND Hne); [done| | |done].
  - intros m1 e m2 ->. upds. destruct m2 as [|f m2].
    + rewrite before_snoc. by upds.
    + rewrite upd_ne.
      * assert (Hx2 : W !! x = Some ((m1 ++ [e]) ++ f :: m2)) by (rewrite Hx; f_equal; by rewrite <- app_assoc).
        destruct (around _ _ _ _ _ _ _ _ _ R Hx2) as (C1 & _). by rewrite before_snoc in C1.
      * change (e :: f :: m2) with ([e] ++ f :: m2). rewrite app_assoc, before_app by done.
        intros E. pose proof (before_loc x (f :: m2) ltac:(done)) as Q. rewrite <- E in Q. apply locs_in in Q.
        rewrite ids_app in ND. apply NoDup_app in ND as (_ & _ & ND). apply NoDup_cons in ND as [ND _]. done.
  - intros z Hz. apply (links_in _ _ _ _ _ _ z (r_rep _ _ _ _ _ _ R _ _ Hx)). by apply elem_of_list_further.
Qed.
Lemma clear_strict cs w e s x l : reached cs w e s -> seqs w !! x = Some l -> l <> [] ->
  lstep false (e, s) (LClear x) = UB /\ lstep false (e, s) (LDestroy x) = UB.
Proof.
  intros R Hx Hne. apply reached_related in R as [R _ _]. pose proof (repr_length _ _ _ _ _ R Hx) as Hl. rewrite <- (repr_made _ _ _ R) in Hl.
  cbn [lstep]. unfold list_destroy. rewrite (clear_null _ _ _ _ _ (fuel_of s) R Hx Hne); [done|]. unfold fuel_of. lia.
Qed.

(** ** swap of a list with itself *)
Lemma swap_self lax W k s x l n p v g : sees s n p v g k -> rel W k n p v g -> W !! x = Some l -> l <> [] ->
  exists t n' p', swap lax x x s = Ok t /\ sees t n' p' v g k /\
    n' (H x) = Some (Some (behind x l)) /\ n' (behind x l) = Some (Some (match l with [_] => H x | _ => behind x l end)) /\
    p' (H x) = Some (Some (before x l)) /\ p' (before x l) = Some (Some (before x l)) /\
    n' (before x l) = Some (Some (H x)).
Proof.
  intros Sn R Hx Hne.
  destruct (around _ _ _ _ _ _ _ [] l R Hx) as (A1 & A2 & A3 & A4 & A5).
  destruct (around _ _ _ _ _ _ _ l [] R ltac:(by rewrite app_nil_r)) as (B1 & B2 & B3 & B4 & _).
  pose proof (r_nodup _ _ _ _ _ _ R _ _ Hx) as ND.
  rewrite before_nil in *. change (behind x []) with (H x) in *. cbn [app] in A5.
  assert (Hb : before x l <> H x) by (intros E; pose proof (before_loc x l Hne) as Q; rewrite E in Q; by apply locs_H in Q).
  assert (Hh : behind x l <> H x) by (intros E; pose proof (behind_loc x l Hne) as Q; rewrite E in Q; by apply locs_H in Q).
  set (f := behind x l) in *. set (b := before x l) in *.
  assert (Sz : forall u n' p', sees u n' p' v g k -> empty x u = Ok false).
  { intros u n' p' Su. unfold empty. rewrite (size_ok _ _ _ _ _ _ _ _ Su A5). cbn [obind]. by destruct l. }
  unfold swap. rewrite (next_ok lax _ _ _ _ _ _ _ _ Sn A1). cbn [obind]. rewrite (prev_ok lax _ _ _ _ _ _ _ _ Sn B2). cbn [obind].
  destruct (unlink_next_ok s (H x) f _ _ _ _ _ Sn A1 A3 A4) as (s1 & E1 & S1). rewrite E1. cbn [obind].
  destruct (unlink_prv_some s1 (H x) b _ _ _ _ _ S1) as (s2 & E2 & S2); [by upds|done|done|]. rewrite E2. cbn [obind].
  assert (E3 : exists s3 n3 p3, unlink_next (H x) s2 = Ok s3 /\ sees s3 n3 p3 v g k /\ n3 (H x) = Some None /\ p3 (H x) = Some None).
  { unfold unlink_next. destruct (read_ok _ (H x) _ _ _ _ _ S2 A3) as (c & -> & Hc & _). cbn [obind]. rewrite upd_ne, upd_eq in Hc by done.
    injection Hc as Hc. rewrite <- Hc. cbn [obind]. destruct (set_nx_ok s2 (H x) None _ _ _ _ _ S2 A3) as (u & -> & Su).
    eexists _, _, _. split; [reflexivity|]. split; [exact Su|]. split; by upds. }
  destruct E3 as (s3 & n3 & p3 & E3 & S3 & N3 & P3). rewrite E3. cbn [obind].
  destruct (unlink_prv_null s3 (H x) _ _ _ _ _ S3 P3 A3) as (s4 & E4 & S4). rewrite E4. cbn [obind].
  rewrite (Sz _ _ _ S4). cbn [obind].
  destruct (link_next_null s4 (H x) f _ _ _ _ _ S4 N3 A3 A4) as (s5 & E5 & S5). rewrite E5. cbn [obind].
  destruct (link_prv_null s5 (H x) b _ _ _ _ _ S5) as (s6 & E6 & S6); [by upds|done|done|]. rewrite E6. cbn [obind].
  rewrite (Sz _ _ _ S6). cbn [obind].
  destruct (link_next_some s6 (H x) f f _ _ _ _ _ S6) as (s7 & E7 & S7); [by upds|done|done|done|]. rewrite E7. cbn [obind].
  destruct (link_prv_some s7 (H x) b b _ _ _ _ _ S7) as (s8 & E8 & S8); [|done|done|done|].
  { upds. done. }
  rewrite E8. cbn [obind].
  rewrite (size_ok _ _ _ _ _ _ _ _ S8 A5). cbn [obind].
  destruct (set_size_ok s8 x (Z.of_nat (length l)) _ _ _ _ _ _ S8 A5) as (s9 & E9 & S9). rewrite E9. cbn [obind].
  rewrite (insert_id _ _ _ A5) in S9.
  destruct (set_size_ok s9 x (Z.of_nat (length l)) _ _ _ _ _ _ S9 A5) as (s10 & E10 & S10). rewrite (insert_id _ _ _ A5) in S10.
  eexists _, _, _. split; [exact E10|]. split; [exact S10|]. split; [by upds|]. split; [|split; [by upds|split; by upds]].
  destruct (decide (f = b)) as [Efb|Hfb].
  - rewrite Efb. upds. assert (exists e, l = [e]) as [e ->]; [|done]. unfold f, b in Efb. clear - Efb ND Hne. destruct l as [|e l]; [done|]. destruct l as [|e2 l _] using rev_ind; [by exists e|].
    rewrite behind_cons, app_comm_cons, before_snoc in Efb. injection Efb as Efb. cbn in ND. apply NoDup_cons in ND as [ND _]. exfalso. apply ND.
    apply elem_of_list_fmap. exists e2. split; [done|]. apply elem_of_app. right. apply elem_of_list_here.
  - upds. destruct l as [|e [|e2 l]]; [done| |done]. exfalso. by apply Hfb.
Qed.
Lemma swap_self_long lax W k s x l : repr W k s -> W !! x = Some l -> 2 <= length l ->
  exists t, swap lax x x s = Ok t /\ forall fuel, forward lax fuel x t = Fuel /\ backward lax fuel x t = Fuel.
Proof.
  intros (n & p & v & g & Sn & R) Hx Hl. assert (Hne : l <> []) by (destruct l; cbn in Hl; [lia|done]).
  destruct (swap_self lax _ _ _ _ _ _ _ _ _ Sn R Hx Hne) as (t & n' & p' & E & St & N1 & N2 & P1 & P2 & _). exists t. split; [done|].
  replace (match l with [_] => H x | _ => behind x l end) with (behind x l) in N2 by (destruct l as [|? [|? ?]]; cbn in Hl; [lia|lia|done]).
  pose proof (r_nodup _ _ _ _ _ _ R _ _ Hx) as ND.
  assert (Val : forall z, z ∈ locs l -> exists d, value z t = Ok d).
  { intros z Hz. destruct z as [y|i]; [by apply locs_H in Hz|]. apply locs_in in Hz. apply elem_of_list_fmap in Hz as ([j d] & -> & Hj).
    exists d. apply (value_ok _ _ _ _ _ _ _ _ St). exact (lr_val _ _ _ _ _ _ (r_rep _ _ _ _ _ _ R _ _ Hx) _ _ Hj). }
  destruct (Val _ (behind_loc x l Hne)) as [d1 V1]. destruct (Val _ (before_loc x l Hne)) as [d2 V2].
  assert (Hb : before x l <> H x) by (intros Eq; pose proof (before_loc x l Hne) as Q; rewrite Eq in Q; by apply locs_H in Q).
  assert (Hh : behind x l <> H x) by (intros Eq; pose proof (behind_loc x l Hne) as Q; rewrite Eq in Q; by apply locs_H in Q).
  assert (Hbh : before x l <> behind x l).
  { clear - ND Hl. destruct l as [|e l]; [cbn in Hl; lia|]. destruct l as [|e2 l _] using rev_ind; [cbn in Hl; lia|].
    rewrite behind_cons, app_comm_cons, before_snoc. intros [= Efb]. cbn in ND. apply NoDup_cons in ND as [ND _]. apply ND.
    apply elem_of_list_fmap. exists e2. split; [done|]. apply elem_of_app. right. apply elem_of_list_here. }
  assert (F : forall fuel, walk lax fuel (behind x l) (H x) t = Fuel).
  { induction fuel as [|fuel IH]; cbn [walk]; rewrite decide_False by done; [done|]. rewrite V1. cbn [obind].
    rewrite (next_ok lax _ _ _ _ _ _ _ _ St N2). cbn [obind]. by rewrite IH. }
  assert (B : forall fuel, walk_back lax fuel (before x l) (behind x l) t = Fuel).
  { induction fuel as [|fuel IH]; cbn [walk_back]; rewrite decide_False by done; [done|].
    rewrite (prev_ok lax _ _ _ _ _ _ _ _ St P2). cbn [obind]. rewrite V2. cbn [obind]. by rewrite IH. }
  intros fuel. unfold forward, backward, list_begin, list_end. rewrite (next_ok lax _ _ _ _ _ _ _ _ St N1). cbn [obind]. split; [apply F|].
  destruct fuel as [|fuel]; cbn [walk_back]; rewrite decide_False by done; [done|].
  rewrite (prev_ok lax _ _ _ _ _ _ _ _ St P1). cbn [obind]. rewrite V2. cbn [obind]. by rewrite B.
Qed.
(** One element: the list then looks intact, but removing the element leaves begin() dangling. *)
Lemma swap_self_one lax W k s x e : repr W k s -> W !! x = Some [e] ->
  exists t u, swap lax x x s = Ok t /\ pop_back lax x t = Ok u /\ size x u = Ok 0%Z /\ list_begin lax x u = Ok (N (fst e)) /\
    cells u !! N (fst e) = None /\ front lax x u = UB /\ forall fuel, forward lax (S fuel) x u = UB.
Proof.
  intros (n & p & v & g & Sn & R) Hx.
  destruct (swap_self lax _ _ _ _ _ _ _ _ _ Sn R Hx ltac:(done)) as (t & n' & p' & E & St & N1 & N2 & P1 & P2 & N3).
  change (before x [e]) with (N (fst e)) in *. change (behind x [e]) with (N (fst e)) in *.
  assert (Ve : is_Some (v (N (fst e)))).
  { apply (links_in _ _ _ _ _ _ _ (r_rep _ _ _ _ _ _ R _ _ Hx)). apply elem_of_list_further, elem_of_list_here. }
  assert (Vh : is_Some (v (H x))) by (rewrite (lr_head _ _ _ _ _ _ (r_rep _ _ _ _ _ _ R _ _ Hx)); eauto).
  pose proof (lr_size _ _ _ _ _ _ (r_rep _ _ _ _ _ _ R _ _ Hx)) as Hg. cbn [length] in Hg.
  unfold pop_back, empty. rewrite E.
  assert (U : exists u, unlink (N (fst e)) t = Ok u /\ exists n2 p2, sees u n2 p2 v g k /\ n2 (H x) = Some (Some (N (fst e)))).
  { unfold unlink. destruct (read_ok _ (N (fst e)) _ _ _ _ _ St Ve) as (c & -> & Hc1 & Hc2 & _). cbn [obind].
    rewrite N3 in Hc1. injection Hc1 as Hc1. rewrite P2 in Hc2. injection Hc2 as Hc2. rewrite <- Hc1, <- Hc2. cbn [obind].
    destruct (set_pv_ok t (H x) (Some (N (fst e))) _ _ _ _ _ St Vh) as (t1 & -> & S1). cbn [obind].
    destruct (read_ok _ (N (fst e)) _ _ _ _ _ S1 Ve) as (c' & -> & Hc1' & Hc2' & _). cbn [obind].
    rewrite upd_ne in Hc2' by done. rewrite N3 in Hc1'. injection Hc1' as Hc1'. rewrite P2 in Hc2'. injection Hc2' as Hc2'. rewrite <- Hc1', <- Hc2'.
    destruct (set_nx_ok t1 (N (fst e)) (Some (H x)) _ _ _ _ _ S1 Ve) as (t2 & -> & S2). cbn [obind].
    destruct (set_nx_ok t2 (N (fst e)) None _ _ _ _ _ S2 Ve) as (t3 & -> & S3). cbn [obind].
    destruct (set_pv_ok t3 (N (fst e)) None _ _ _ _ _ S3 Ve) as (t4 & -> & S4).
    exists t4. split; [done|]. eexists _, _. split; [exact S4|]. by upds. }
  destruct U as (u & EU & n2 & p2 & Su & Nu).
  destruct (destory_ok u (fst e) _ _ _ _ _ Su Ve) as (u2 & E2 & S2).
  destruct (set_size_ok u2 x (1 - 1) _ _ _ _ _ _ S2 Hg) as (u3 & E3 & S3).
  exists t, u3. split; [done|].
  rewrite (size_ok _ _ _ _ _ _ _ _ St Hg). cbn [obind Z.of_nat Z.eqb Pos.of_succ_nat].
  rewrite (prev_ok lax _ _ _ _ _ _ _ _ St P1). cbn [obind]. rewrite EU. cbn [obind]. rewrite E2. cbn [obind].
  rewrite (size_ok _ _ _ _ _ _ _ _ S2 Hg). cbn [obind]. split; [exact E3|].
  assert (Hbeg : list_begin lax x u3 = Ok (N (fst e))).
  { unfold list_begin. apply (next_ok lax _ _ _ _ _ _ _ _ S3). by upds. }
  assert (Hc : cells u3 !! N (fst e) = None).
  { pose proof (see_vl _ _ _ _ _ _ S3 (N (fst e))) as Q. rewrite upd_eq in Q. unfold vll in Q. by destruct (cells u3 !! N (fst e)). }
  assert (Hv : value (N (fst e)) u3 = UB) by (unfold value, get; by rewrite Hc).
  split; [apply (size_ok _ _ _ _ _ _ _ _ S3); apply lookup_insert|]. split; [done|]. split; [done|].
  unfold front, forward, list_end. rewrite Hbeg. cbn [obind]. split; [done|]. intros fuel. cbn [walk]. rewrite decide_False by done. by rewrite Hv.
Qed.
Lemma swap_self_empty lax W k s x : repr W k s -> W !! x = Some [] -> exists t, swap lax x x s = Ok t /\ repr W k t.
Proof.
  intros (n & p & v & g & Sn & R) Hx.
  destruct (around _ _ _ _ _ _ _ [] [] R Hx) as (A1 & A2 & A3 & _ & A5).
  rewrite before_nil in *. change (behind x []) with (H x) in *. cbn [app length] in A5. change (Z.of_nat 0) with 0%Z in A5.
  assert (Sz : forall u n' p', sees u n' p' v g k -> empty x u = Ok true).
  { intros u n' p' Su. unfold empty. rewrite (size_ok _ _ _ _ _ _ _ _ Su A5). done. }
  unfold swap. rewrite (next_ok lax _ _ _ _ _ _ _ _ Sn A1). cbn [obind]. rewrite (prev_ok lax _ _ _ _ _ _ _ _ Sn A2). cbn [obind].
  destruct (unlink_next_ok s (H x) (H x) _ _ _ _ _ Sn A1 A3 A3) as (s1 & E1 & S1). rewrite E1. cbn [obind].
  destruct (unlink_prv_null s1 (H x) _ _ _ _ _ S1) as (s2 & E2 & S2); [by upds|done|]. rewrite E2. cbn [obind].
  assert (E3 : exists s3, unlink_next (H x) s2 = Ok s3 /\ exists n3 p3, sees s3 n3 p3 v g k /\ n3 (H x) = Some None /\ p3 (H x) = Some None /\
    forall z, z <> H x -> n3 z = n z /\ p3 z = p z).
  { unfold unlink_next. destruct (read_ok _ (H x) _ _ _ _ _ S2 A3) as (c & -> & Hc & _). cbn [obind]. rewrite upd_eq in Hc.
    injection Hc as Hc. rewrite <- Hc. cbn [obind]. destruct (set_nx_ok s2 (H x) None _ _ _ _ _ S2 A3) as (u & -> & Su).
    eexists. split; [reflexivity|]. eexists _, _. split; [exact Su|]. split; [by upds|]. split; [by upds|]. intros z Hz. by upds. }
  destruct E3 as (s3 & E3 & n3 & p3 & S3 & N3 & P3 & F3). rewrite E3. cbn [obind].
  destruct (unlink_prv_null s3 (H x) _ _ _ _ _ S3 P3 A3) as (s4 & E4 & S4). rewrite E4. cbn [obind].
  rewrite (Sz _ _ _ S4). cbn [obind].
  destruct (link_next_null s4 (H x) (H x) _ _ _ _ _ S4 N3 A3 A3) as (s5 & E5 & S5). rewrite E5. cbn [obind].
  rewrite (Sz _ _ _ S5). cbn [obind].
  destruct (link_next_some s5 (H x) (H x) (H x) _ _ _ _ _ S5) as (s7 & E7 & S7); [by upds|done|done|done|]. rewrite E7. cbn [obind].
  rewrite (size_ok _ _ _ _ _ _ _ _ S7 A5). cbn [obind].
  destruct (set_size_ok s7 x 0%Z _ _ _ _ _ _ S7 A5) as (s9 & E9 & S9). rewrite E9. cbn [obind].
  rewrite (insert_id _ _ _ A5) in S9.
  destruct (set_size_ok s9 x 0%Z _ _ _ _ _ _ S9 A5) as (s10 & E10 & S10). rewrite (insert_id _ _ _ A5) in S10.
  exists s10. split; [done|]. eexists _, _, _, _. split; [exact S10|].
  assert (Hx' : W !! x = Some ([] ++ [] ++ [])) by done.
  replace W with (<[x := [] ++ []]> W) by (cbn [app]; by rewrite insert_id).
  apply (cut W k n p v g x [] [] []); try done; rewrite ?before_nil; change (behind x []) with (H x).
  - by upds.
  - by upds.
  - intros z _ Hz. upds. by apply F3.
  - intros z _ Hz. upds. by apply F3.
  - intros z Hz. by apply elem_of_nil in Hz.
  - symmetry. by apply insert_id.
Qed.

(** ** Iterators *)
Lemma find_in (l : seq) k d : NoDup (ids l) -> (k, d) ∈ l -> exists q, find k l = Some q /\ l !! q = Some (k, d).
Proof.
  induction l as [|[i c] l IH]; intros ND Hin; [by apply elem_of_nil in Hin|]. cbn [find fst]. unfold ids in ND. cbn in ND.
  apply NoDup_cons in ND as [ND1 ND2]. apply elem_of_cons in Hin as [[= -> ->]|Hin].
  - rewrite Nat.eqb_refl. by exists 0.
  - destruct (Nat.eqb i k) eqn:E; [apply Nat.eqb_eq in E as ->; exfalso; apply ND1; exact (in_ids _ _ _ Hin)|].
    destruct (IH ND2 Hin) as (q & -> & Hq). by exists (S q).
Qed.
Lemma deref_iff w i x l d : seqs w !! x = Some l -> NoDup (ids l) -> deref w i x = Some d <-> exists k, marks w !! i = Some (At k) /\ (k, d) ∈ l.
Proof.
  intros Hx ND. unfold deref. rewrite Hx. cbn. split.
  - intros E. apply bind_Some in E as (m & Hm & E). apply bind_Some in E as (q & Hq & E). apply fmap_Some in E as ([k c] & Hf & ->).
    destruct m as [j|y]; cbn [pos] in Hq.
    + apply find_pos in Hq as [c' Hq]. rewrite Hf in Hq. injection Hq as <- <-. exists k. split; [done|]. exact (elem_of_list_lookup_2 _ _ _ Hf).
    + destruct (Nat.eqb x y); [|done]. injection Hq as <-. apply lookup_lt_Some in Hf. lia.
  - intros (k & -> & Hin). cbn. destruct (find_in _ _ _ ND Hin) as (q & -> & Hq). cbn. by rewrite Hq.
Qed.
Lemma related_nodup e s w x l : related e s w -> seqs w !! x = Some l -> NoDup (ids l).
Proof. intros [(n & p & v & g & Sn & R) _ _] Hx. exact (r_nodup _ _ _ _ _ _ R _ _ Hx). Qed.

Definition same_after (c : lcmd A) (e : env) s w (i y : nat) (d : A) w' : Prop :=
  exists e' s', lstep true (e, s) c = Ok (e', s') /\ e' !! i = e !! i /\ deref w' i y = Some d /\
    read_arg e' (AIter i y) s' = Ok d.
Lemma keep_iter c e s w w' i y d : related e s w -> sstep w c = Some w' -> deref w i y = Some d ->
  marks w' !! i = marks w !! i ->
  (forall k l, seqs w !! y = Some l -> marks w !! i = Some (At k) -> (k, d) ∈ l -> exists l', seqs w' !! y = Some l' /\ (k, d) ∈ l') ->
  same_after c e s w i y d w'.
Proof.
  intros R Hs Hd Hm Hk. destruct (step_ok _ _ _ _ _ R Hs) as (e' & s' & E & R').
  assert (Hy : exists l, seqs w !! y = Some l) by (unfold deref in Hd; apply bind_Some in Hd as (l & Hl & _); eauto). destruct Hy as [l Hl].
  apply (deref_iff _ _ _ _ _ Hl (related_nodup _ _ _ _ _ R Hl)) in Hd as (k & Hmk & Hin).
  destruct (Hk _ _ Hl Hmk Hin) as (l' & Hl' & Hin').
  assert (Hd' : deref w' i y = Some d).
  { apply (deref_iff _ _ _ _ _ Hl' (related_nodup _ _ _ _ _ R' Hl')). exists k. by rewrite Hm. }
  exists e', s'. split; [done|]. split; [by rewrite (rl_iter _ _ _ R), (rl_iter _ _ _ R'), Hm|]. split; [done|].
  exact (arg_ok _ _ _ (AIter i y) _ R' Hd').
Qed.

Ltac opt := repeat match goal with
  | H : (_ ≫= _) = Some _ |- _ => let x := fresh "o" in let E := fresh "E" in apply bind_Some in H as (x & E & H)
  end.
Ltac other x y Hx := destruct (decide (x = y)) as [->|]; [|eexists; rewrite lookup_insert_ne by congruence; split; [exact Hx|done]].

(** An element more: at either end or before any iterator. *)
Lemma iter_add c cs w e s w' i y d : reached cs w e s -> sstep w c = Some w' -> deref w i y = Some d ->
  match c with LPushBack _ _ | LPushFront _ _ => True | LInsert _ _ _ j => j <> i | _ => False end -> same_after c e s w i y d w'.
Proof.
  intros R Hs Hd Hc. apply reached_related in R. apply (keep_iter c e s w w' i y d R Hs Hd).
  - destruct c; try done; cbn [sstep] in Hs; opt; injection Hs as <-; [done|done|]. cbn. by rewrite lookup_insert_ne.
  - intros k l Hl Hm Hin. destruct c; try done; cbn [sstep] in Hs; opt; injection Hs as <-; cbn [seqs set_seq set_mark add_born].
    + other x y Hl. rewrite lookup_insert. eexists. split; [done|]. rewrite E in Hl. injection Hl as <-. apply elem_of_app. auto.
    + other x y Hl. rewrite lookup_insert. eexists. split; [done|]. rewrite E in Hl. injection Hl as <-. by apply elem_of_list_further.
    + other x y Hl. rewrite lookup_insert. eexists. split; [done|]. rewrite E in Hl. injection Hl as <-.
      rewrite <- (take_drop o1 o) in Hin. apply elem_of_app in Hin as [?|?]; apply elem_of_app; [auto|right; by apply elem_of_list_further].
Qed.
(** An element less: erase of another element, or of a range the iterator is not in. *)
Lemma iter_erase cs w e s w' i y d x p j : reached cs w e s -> sstep w (LErase x p j) = Some w' -> deref w i y = Some d ->
  marks w !! p <> marks w !! i -> j <> i -> same_after (LErase x p j) e s w i y d w'.
Proof.
  intros R Hs Hd Hp Hj. apply reached_related in R. apply (keep_iter _ e s w w' i y d R Hs Hd); cbn [sstep] in Hs; opt; injection Hs as <-.
  - cbn. by rewrite lookup_insert_ne.
  - intros k l Hl Hm Hin. cbn [seqs set_seq set_mark]. other x y Hl. rewrite lookup_insert. eexists. split; [done|].
    rewrite E in Hl. injection Hl as <-.
    assert (Hne : (k, d) <> o2).
    { intros <-. apply Hp. rewrite Hm, E0. f_equal. destruct o0 as [k'|z]; cbn [pos] in E1.
      - apply find_pos in E1 as [d' E1]. rewrite E2 in E1. by injection E1 as -> _.
      - destruct (Nat.eqb y z); [|done]. injection E1 as <-. apply lookup_lt_Some in E2. lia. }
    rewrite <- (take_drop o1 o), (drop_at _ _ _ E2) in Hin. apply elem_of_app in Hin as [?|Hin]; apply elem_of_app; [auto|right].
    apply elem_of_cons in Hin as [?|?]; done.
Qed.
Lemma iter_erase_range cs w e s w' i y d x p q j : reached cs w e s -> sstep w (LEraseRange x p q j) = Some w' -> deref w i y = Some d ->
  (forall l m a b c m1 m2, x = y -> seqs w !! y = Some l -> marks w !! i = Some m -> pos y l m = Some c ->
     marks w !! p = Some m1 -> pos y l m1 = Some a -> marks w !! q = Some m2 -> pos y l m2 = Some b -> c < a \/ b <= c) ->
  j <> i -> same_after (LEraseRange x p q j) e s w i y d w'.
Proof.
  intros R Hs Hd Hp Hj. apply reached_related in R. apply (keep_iter _ e s w w' i y d R Hs Hd); cbn [sstep] in Hs; opt;
    (destruct (Nat.leb o2 o3); [|done]); injection Hs as <-.
  - cbn. by rewrite lookup_insert_ne.
  - intros k l Hl Hm Hin. cbn [seqs set_seq set_mark]. other x y Hl. rewrite lookup_insert. eexists. split; [done|].
    rewrite E in Hl. injection Hl as <-.
    destruct (find_in _ _ _ (related_nodup _ _ _ _ _ R E) Hin) as (c & Hc & Hlc).
    destruct (Hp o (At k) o2 o3 c o0 o1 eq_refl E Hm Hc E0 E2 E1 E3) as [Hlt|Hge].
    + apply elem_of_app. left. apply elem_of_list_lookup. exists c. by rewrite lookup_take.
    + apply elem_of_app. right. apply elem_of_list_lookup. exists (c - o3). rewrite lookup_drop. by replace (o3 + (c - o3)) with c by lia.
Qed.
(** From any iterator, ++ visits exactly the rest of its list. *)
Lemma iter_rest cs w e s i x l m p fuel : reached cs w e s -> seqs w !! x = Some l -> marks w !! i = Some m -> pos x l m = Some p ->
  length l - p <= fuel -> exists q, e !! i = Some q /\ walk true fuel q (list_end x) s = Ok (snd <$> drop p l).
Proof.
  intros R Hx Hm Hp Hf. apply reached_related in R. exists (loc_of m). split; [by rewrite (rl_iter _ _ _ R), Hm|].
  rewrite (pos_loc _ _ _ _ Hp). apply (walk_ok true (seqs w) (born w) s x (drop p l) (rl_repr _ _ _ R) (take p l)).
  - by rewrite take_drop.
  - rewrite drop_length. done.
Qed.
Lemma self_long cs w e s x l lax : reached cs w e s -> seqs w !! x = Some l -> 2 <= length l ->
  exists t, swap lax x x s = Ok t /\ forall fuel, forward lax fuel x t = Fuel /\ backward lax fuel x t = Fuel.
Proof. intros R. apply reached_related in R as [R _ _]. exact (swap_self_long lax _ _ _ _ _ R). Qed.
Lemma self_one cs w e s x d lax : reached cs w e s -> seqs w !! x = Some [d] ->
  exists t u, swap lax x x s = Ok t /\ pop_back lax x t = Ok u /\ size x u = Ok 0%Z /\ list_begin lax x u = Ok (N (fst d)) /\
    cells u !! N (fst d) = None /\ front lax x u = UB /\ forall fuel, forward lax (S fuel) x u = UB.
Proof. intros R. apply reached_related in R as [R _ _]. exact (swap_self_one lax _ _ _ _ _ R). Qed.
Lemma self_empty cs w e s x lax : reached cs w e s -> seqs w !! x = Some [] ->
  exists t, swap lax x x s = Ok t /\ forall y l, seqs w !! y = Some l -> shows lax t y (snd <$> l).
Proof.
  intros R Hx. apply reached_related in R as [R _ _]. destruct (swap_self_empty lax _ _ _ _ R Hx) as (t & E & Rt).
  exists t. split; [done|]. intros y l Hy. exact (shows_ok lax _ _ _ _ _ Rt Hy).
Qed.
End facts.
