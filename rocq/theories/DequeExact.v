(** Histories without a result: the first operation outside the preconditions is undefined. *)
From stdpp Require Import gmap list.
From Coq Require Import ZArith Lia ZifyBool ZifyNat.
From Verif Require Import Base ObjModel ObjSpec ObjProofs DequeModel DequeSpec DequeProofs DequeOps DequeRun DequeFacts DequeStorage.
Local Open Scope Z_scope.
Local Open Scope outcome_scope.

Section exact.
Context {A : Type} (esz : Z) (Hblock : 16 * esz < 2 ^ 63).
Notation val := (A + nat)%type.
Notation mem := (mem val).
Notation store := (gmap nat (sq A)).
Notation env := (gmap nat deq).
Implicit Types (m : mem) (s : store) (e : env) (q : sq A) (d : deq).

Lemma obj_ptr_two d n m : obj_ptr d n m = UB \/ exists p, obj_ptr d n m = Ok p.
Proof.
  unfold obj_ptr. destruct (dblocks d) as [|b i]; cbn [padd].
  - destruct (n / 16 =? 0); cbn [obind]; left; reflexivity.
  - cbn [obind]. unfold load_ptr, load, slot. destruct (blocks m !! b) as [cs|]; cbn [of_option obind]; [|left; reflexivity].
    destruct (0 <=? i + n / 16); [|left; reflexivity].
    destruct (cs !! Z.to_nat (i + n / 16)) as [c|]; cbn [of_option obind]; [|left; reflexivity].
    destruct c as [|[[v|k]|]]; cbn [obind]; eauto.
Qed.
Definition bad (a : arg val) o m : Prop := forall m1, untouched o m m1 -> read_arg a m1 = UB.
(** A position outside the elements: no address, or the address of a slot without an object. *)
Lemma obj_out d q o m n : drep d q o m -> fresh m -> n < Z.of_nat (head q) \/ Z.of_nat (head q + len q) <= n ->
  obj_ptr d n m = UB \/ exists p, obj_ptr d n m = Ok p /\ dtor p m = UB /\ bad (ARef p) o m.
Proof.
  intros (H1 & H2 & H3 & H4 & H5 & H6) Hf Hout. destruct H6 as [(_ & Hb & _)|(arr & blks & Hle & Hb & -> & Hbl & Hbody)].
  - left. unfold obj_ptr. rewrite Hb. unfold padd. destruct (n / 16 =? 0); reflexivity.
  - destruct (Z.lt_ge_cases n 0) as [Hneg|Hpos].
    { left. unfold obj_ptr. rewrite Hb. cbn [padd obind]. unfold load_ptr, load, slot. destruct Hbody as (_ & -> & _). cbn [of_option obind].
      replace (0 <=? 0 + n / 16) with false by lia. reflexivity. }
    destruct (Z.lt_ge_cases n (16 * Z.of_nat (room q))) as [Hlt|Hge].
    + right. replace n with (Z.of_nat (Z.to_nat n)) by lia.
      destruct (body_pos _ _ _ _ (Z.to_nat n) Hbody) as (b & cs & X1 & X2 & X3 & X4 & X5); [lia|].
      rewrite want_raw in X5 by lia.
      rewrite (body_ptr _ _ _ _ _ _ _ Hbody Hb X1). eexists. split; [reflexivity|]. split.
      { unfold dtor, slot. rewrite X3. cbn [of_option obind]. replace (0 <=? _) with true by lia. rewrite Nat2Z.id, X5. reflexivity. }
      intros m1 U. unfold read_arg. erewrite load_raw; [reflexivity| |exact X5].
      rewrite U; [exact X3| |cbn; congruence].
      destruct (Nat.lt_ge_cases b (nextb m)) as [Y|Y]; [exact Y|]. rewrite (Hf _ Y) in X3. discriminate.
    + left. unfold obj_ptr. rewrite Hb. cbn [padd obind]. unfold load_ptr, load, slot. destruct Hbody as (_ & -> & _). cbn [of_option obind].
      replace (0 <=? 0 + n / 16) with true by lia. rewrite lookup_ge_None_2; [reflexivity|]. rewrite fmap_length. lia.
Qed.
Lemma emplace_back_bad a d q o m : drep d q o m -> fresh m -> bad a o m -> Z.of_nat (room q) + 1 < 2 ^ 31 -> emplace_back esz a d m = UB.
Proof.
  intros Hd Hf Ha Hr. unfold emplace_back.
  assert (Hg : Z.of_nat (room (grow_back q)) < 2 ^ 31).
  { unfold grow_back. destruct (Nat.eqb (room q) 0); [cbn; lia|]. destruct (Nat.ltb _ _); cbn [room]; lia. }
  destruct (ensure_back_ok esz Hblock _ _ _ _ Hd Hf Hg) as (d1 & o1 & m1 & -> & _ & _ & U). cbn [obind].
  match goal with |- context [obj_ptr ?d2 ?n m1] => destruct (obj_ptr_two d2 n m1) as [->|(p & ->)] end; cbn [obind]; [reflexivity|].
  rewrite (Ha _ U). reflexivity.
Qed.
Lemma emplace_front_badarg a d q o m : drep d q o m -> fresh m -> bad a o m -> emplace_front esz a d m = UB.
Proof.
  intros Hd Hf Ha.
  destruct (decide (head q = 0%nat /\ (2 <= room q)%nat)) as [[Hh Hr]|Hn]; [eapply emplace_front_bad; eassumption|].
  unfold emplace_front.
  destruct (ensure_front_ok esz Hblock _ _ _ _ Hd Hf) as (d1 & o1 & m1 & -> & _ & _ & U); [lia|]. cbn [obind].
  match goal with |- context [obj_ptr ?d2 ?n m1] => destruct (obj_ptr_two d2 n m1) as [->|(p & ->)] end; cbn [obind]; [reflexivity|].
  rewrite (Ha _ U). reflexivity.
Qed.
Lemma nth_none q i : nth q i = None -> i < 0 \/ Z.of_nat (len q) <= i.
Proof.
  unfold nth. destruct (Z.leb_spec 0 i); [|lia]. intros E. apply lookup_ge_None in E. unfold len. lia.
Qed.
Lemma pop_out d q o m n : drep d q o m -> fresh m -> elems q = [] -> (p <~ obj_ptr d n m ; dtor p m) = UB.
Proof.
  intros Hd Hf He. destruct (obj_out d q o m n Hd Hf) as [->|(p & -> & E & _)].
  { unfold len. rewrite He. cbn. lia. }
  - reflexivity.
  - cbn [obind]. exact E.
Qed.

(** Few elements: the number of blocks stays below the limit. *)
Definition small (N : nat) s : Prop := forall x q, s !! x = Some q -> (len q <= N /\ room q <= N)%nat.
Definition more (c : dcmd A) : nat := adds c + (if fronts c then 1 else 0).
Lemma small_put N s x q : small N s -> (len q <= N)%nat -> (room q <= N)%nat -> small N (<[x := q]> s).
Proof.
  intros H H1 H2 y p. destruct (decide (y = x)) as [->|Hne].
  - rewrite lookup_insert. intros [= <-]. auto.
  - rewrite lookup_insert_ne by congruence. apply H.
Qed.
Lemma small_mono N M s : (N <= M)%nat -> small N s -> small M s.
Proof. intros H Hs x q Hx. specialize (Hs _ _ Hx). lia. Qed.
Lemma spush_back_small a q q' : spush_back a q = Some q' -> len q' = S (len q) /\ (room q' <= S (room q))%nat.
Proof.
  unfold spush_back, len. destruct (Nat.eqb (room q) 0); [intros [= <-]|destruct (Nat.ltb _ _); [intros [= <-]|destruct (Z.ltb _ _); [intros [= <-]|discriminate]]];
    cbn [elems room]; rewrite app_length; cbn [length]; lia.
Qed.
Lemma spush_front_small a q q' : spush_front a q = Some q' -> len q' = S (len q) /\ (room q' <= S (room q))%nat.
Proof.
  unfold spush_front, len. destruct (Nat.ltb _ _); [intros [= <-]; cbn; lia|].
  destruct (room q) as [|[|k]]; [intros [= <-]..|discriminate]; cbn; lia.
Qed.
Lemma spush_all_small l : forall q q', spush_all l q = Some q' -> (len q' = len q + length l /\ room q' <= room q + length l)%nat.
Proof.
  induction l as [|a l IH]; intros q q' H; cbn [spush_all length] in *; [injection H as <-; lia|].
  destruct (spush_back a q) as [q1|] eqn:E; [|discriminate]. apply spush_back_small in E. apply IH in H. lia.
Qed.
Lemma scopy_small q q' : scopy q = Some q' -> (len q' = len q /\ room q' <= len q)%nat.
Proof.
  unfold scopy, len. destruct (elems q) as [|a l] eqn:E; [discriminate|]. rewrite <- E. intros H. apply spush_all_small in H.
  unfold len in H. cbn [sq0 elems room length] in H. lia.
Qed.
Lemma small_step N s c s' : small N s -> sstep s c = Some s' -> small (N + more c) s'.
Proof.
  intros HN Hs. assert (HM : small (N + more c) s) by (eapply small_mono; [|exact HN]; lia).
  unfold more in *.
  destruct c as [x|x l|x y|x y|x|x a|x a|x i|x i|x|x|x|x y|x y|x y]; cbn [sstep adds fronts] in *.
  - apply new_Some in Hs as [_ ->]. apply small_put; [exact HM|cbn; lia..].
  - destruct (spush_all l sq0) as [q|] eqn:El; [|discriminate]. apply new_Some in Hs as [_ ->]. apply spush_all_small in El. cbn in El.
    apply small_put; [exact HM|lia..].
  - destruct (s !! y) as [q|] eqn:Hy; [|discriminate]. destruct (scopy q) as [q'|] eqn:Eq; [|discriminate].
    apply new_Some in Hs as [_ ->]. apply scopy_small in Eq. specialize (HN _ _ Hy). apply small_put; [exact HM|lia..].
  - destruct (s !! y) as [q|] eqn:Hy; [|discriminate]. apply new_Some in Hs as [_ ->]. specialize (HN _ _ Hy).
    apply small_put; [apply small_put; [exact HM|cbn; lia..]|lia..].
  - destruct (s !! x) as [q|]; [|discriminate]. injection Hs as <-. intros y q'. destruct (decide (y = x)) as [->|Hne].
    + rewrite lookup_delete. discriminate.
    + rewrite lookup_delete_ne by congruence. apply HM.
  - apply on_Some in Hs as (q & q' & Hx & Eq & ->). apply spush_back_small in Eq. specialize (HN _ _ Hx). apply small_put; [exact HM|lia..].
  - apply on_Some in Hs as (q & q' & Hx & Eq & ->). apply spush_front_small in Eq. specialize (HN _ _ Hx). apply small_put; [exact HM|lia..].
  - apply on_Some in Hs as (q & q' & Hx & Eq & ->). destruct (nth q i) as [a|]; [|discriminate].
    apply spush_back_small in Eq. specialize (HN _ _ Hx). apply small_put; [exact HM|lia..].
  - apply on_Some in Hs as (q & q' & Hx & Eq & ->). destruct (nth q i) as [a|]; [|discriminate].
    apply spush_front_small in Eq. specialize (HN _ _ Hx). apply small_put; [exact HM|lia..].
  - apply on_Some in Hs as (q & q' & Hx & Eq & ->). specialize (HN _ _ Hx). unfold spop_back in Eq.
    destruct (elems q) as [|a l] eqn:El; [discriminate|]. injection Eq as <-. unfold len in *. rewrite El in HN.
    apply small_put; [exact HM|unfold len; cbn [keep elems]; rewrite ?take_length, ?El; cbn [length] in *; lia|cbn; lia].
  - apply on_Some in Hs as (q & q' & Hx & Eq & ->). specialize (HN _ _ Hx). unfold spop_front in Eq.
    destruct (elems q) as [|a l] eqn:El; [discriminate|]. injection Eq as <-. unfold len in *. rewrite El in HN.
    apply small_put; [exact HM|unfold len; cbn [keep elems]; cbn [length] in *; lia|cbn; lia].
  - apply on_Some in Hs as (q & q' & Hx & [= <-] & ->). specialize (HN _ _ Hx). unfold sclear. destruct (elems q) as [|a l] eqn:El.
    + apply small_put; [exact HM|lia..].
    + apply small_put; [exact HM|cbn; lia..].
  - destruct (s !! y) as [q|] eqn:Hy; [|discriminate]. destruct (scopy q) as [q'|] eqn:Eq; [|discriminate].
    apply on_Some in Hs as (p & p' & _ & [= <-] & ->). apply scopy_small in Eq. specialize (HN _ _ Hy). apply small_put; [exact HM|lia..].
  - destruct (s !! y) as [q|] eqn:Hy; [|discriminate]. apply on_Some in Hs as (k & l' & _ & [= <-] & ->). specialize (HN _ _ Hy).
    apply small_put; [apply small_put; [exact HM|cbn; lia..]|lia..].
  - destruct (s !! x) as [p|] eqn:Hx; [|discriminate]. destruct (s !! y) as [q|] eqn:Hy; [|discriminate]. injection Hs as <-.
    pose proof (HN _ _ Hx). pose proof (HN _ _ Hy). apply small_put; [apply small_put; [exact HM|lia..]|lia..].
Qed.

Lemma var_UB w s e m x : inv w s e m -> s !! x = None -> var e x = UB.
Proof. intros (_ & Hd & _) Hx. apply Hd in Hx. unfold var. rewrite Hx. reflexivity. Qed.
Lemma update_UB w s e m x (f : deq -> outcome (deq * mem)) : inv w s e m ->
  (forall q d, s !! x = Some q -> drep d q (w x) m -> f d = UB) -> update e x f = UB.
Proof.
  intros Hinv Hf. unfold update. destruct (s !! x) as [q|] eqn:Hx.
  - destruct (inv_env _ _ _ _ _ _ Hinv Hx) as (d & Hv & Hr). unfold var. rewrite Hv. cbn [of_option obind].
    rewrite (Hf _ _ eq_refl Hr). reflexivity.
  - rewrite (var_UB _ _ _ _ _ Hinv Hx). reflexivity.
Qed.
Lemma declare_UB w s e m x (r : outcome (deq * mem)) : inv w s e m -> (s !! x = None -> r = UB) -> declare e x r = UB.
Proof.
  intros (_ & Hd & _) Hr. unfold declare. destruct (e !! x) as [d|] eqn:E; [reflexivity|]. apply Hd in E. rewrite (Hr E). reflexivity.
Qed.
Lemma on_none s x f : on s x f = None -> s !! x = None \/ exists q, s !! x = Some q /\ f q = None.
Proof. unfold on. destruct (s !! x) as [q|]; [|auto]. destruct (f q) eqn:E; [discriminate|]. eauto. Qed.
Lemma new_none s x q : new s x q = None -> s !! x <> None.
Proof. unfold new. destruct (s !! x); [discriminate|]. intros [=]. Qed.
Lemma scopy_none q : scopy q = None -> Z.of_nat (len q) < 2 ^ 31 -> elems q = [].
Proof.
  unfold scopy, len. destruct (elems q) as [|a l] eqn:E; [reflexivity|]. intros H HN.
  destruct (spush_all_some (a :: l) sq0) as (q' & E1 & _); [cbn [room sq0]; lia|]. congruence.
Qed.
Lemma step_UB w s e m c N : inv w s e m -> small N s -> Z.of_nat N + Z.of_nat (more c) < 2 ^ 31 - 1 -> sstep s c = None ->
  dstep esz (e, m) c = UB.
Proof.
  intros Hinv HN Hlim Hs. pose proof Hinv as (Hf & Hd & Hn & _). unfold more in Hlim.
  destruct c as [x|x l|x y|x y|x|x a|x a|x i|x i|x|x|x|x y|x y|x y]; cbn [sstep dstep adds fronts] in *.
  - apply new_none in Hs. eapply declare_UB; [exact Hinv|]. intros; contradiction.
  - destruct (spush_all_some l sq0) as (q & Eq & _); [cbn [room sq0]; lia|]. rewrite Eq in Hs. apply new_none in Hs.
    eapply declare_UB; [exact Hinv|]. intros; contradiction.
  - eapply declare_UB; [exact Hinv|]. intros Hx. destruct (s !! y) as [q|] eqn:Hy.
    + destruct (scopy q) as [q'|] eqn:Eq; [apply new_none in Hs; contradiction|].
      apply scopy_none in Eq; [|specialize (HN _ _ Hy); lia].
      destruct (inv_env _ _ _ _ _ _ Hinv Hy) as (d & Hv & Hr). unfold var. rewrite Hv. cbn [of_option obind].
      eapply dcopy_empty; eassumption.
    + rewrite (var_UB _ _ _ _ _ Hinv Hy). reflexivity.
  - destruct (s !! y) as [q|] eqn:Hy.
    + destruct (inv_env _ _ _ _ _ _ Hinv Hy) as (d & Hv & Hr). unfold var. rewrite Hv. cbn [of_option obind dmove dswap].
      apply new_none in Hs. unfold declare. destruct (decide (x = y)) as [->|Hne]; [rewrite lookup_insert; reflexivity|].
      rewrite lookup_insert_ne in Hs by congruence; rewrite lookup_insert_ne by congruence. destruct (e !! x) eqn:E; [reflexivity|]. apply Hd in E. contradiction.
    + rewrite (var_UB _ _ _ _ _ Hinv Hy). reflexivity.
  - destruct (s !! x) as [q|] eqn:Hx; [discriminate|]. rewrite (var_UB _ _ _ _ _ Hinv Hx). reflexivity.
  - eapply update_UB; [exact Hinv|]. intros q d Hx Hr. apply on_none in Hs as [Hs|(q' & Hq & Hs)]; [congruence|].
    rewrite Hx in Hq. injection Hq as <-. destruct (spush_back_some a q) as (q' & E & _); [specialize (HN _ _ Hx); lia|]. congruence.
  - eapply update_UB; [exact Hinv|]. intros q d Hx Hr. apply on_none in Hs as [Hs|(q' & Hq & Hs)]; [congruence|].
    rewrite Hx in Hq. injection Hq as <-. unfold spush_front in Hs. destruct (Nat.ltb_spec 0 (head q)); [discriminate|].
    destruct (room q) as [|[|k]] eqn:Er; [discriminate..|]. eapply (emplace_front_bad esz Hblock); [exact Hr|exact Hf|lia|lia].
  - eapply update_UB; [exact Hinv|]. intros q d Hx Hr. apply on_none in Hs as [Hs|(q' & Hq & Hs)]; [congruence|].
    rewrite Hx in Hq. injection Hq as <-. pose proof (HN _ _ Hx). destruct (nth q i) as [a|] eqn:Ei.
    + destruct (spush_back_some a q) as (q' & E & _); [lia|]. congruence.
    + apply nth_none in Ei. pose proof Hr as (_ & _ & H3 & _). unfold dbegin. rewrite H3.
      destruct (obj_out d q _ m (Z.of_nat (head q) + i) Hr Hf) as [->|(p & -> & _ & Hb)]; [lia|reflexivity|].
      cbn [obind]. eapply emplace_back_bad; [exact Hr|exact Hf|exact Hb|lia].
  - eapply update_UB; [exact Hinv|]. intros q d Hx Hr. apply on_none in Hs as [Hs|(q' & Hq & Hs)]; [congruence|].
    rewrite Hx in Hq. injection Hq as <-. destruct (nth q i) as [a|] eqn:Ei.
    + unfold spush_front in Hs. destruct (Nat.ltb_spec 0 (head q)); [discriminate|].
      destruct (room q) as [|[|k]] eqn:Er; [discriminate..|].
      destruct (gives_elem _ _ _ _ _ _ Hr Hf Ei) as (p & -> & _). cbn [obind].
      eapply (emplace_front_bad esz Hblock); [exact Hr|exact Hf|lia|lia].
    + apply nth_none in Ei. pose proof Hr as (_ & _ & H3 & _). unfold dbegin. rewrite H3.
      destruct (obj_out d q _ m (Z.of_nat (head q) + i) Hr Hf) as [->|(p & -> & _ & Hb)]; [lia|reflexivity|].
      cbn [obind]. eapply emplace_front_badarg; [exact Hr|exact Hf|exact Hb].
  - eapply update_UB; [exact Hinv|]. intros q d Hx Hr. apply on_none in Hs as [Hs|(q' & Hq & Hs)]; [congruence|].
    rewrite Hx in Hq. injection Hq as <-. unfold spop_back in Hs. destruct (elems q) eqn:He; [|discriminate].
    pose proof (pop_out _ _ _ _ (dlast d) Hr Hf He) as E. unfold pop_back.
    destruct (obj_ptr_two d (dlast d) m) as [E1|(p & E1)]; rewrite E1 in *; cbn [obind] in *; [reflexivity|]. rewrite E. reflexivity.
  - eapply update_UB; [exact Hinv|]. intros q d Hx Hr. apply on_none in Hs as [Hs|(q' & Hq & Hs)]; [congruence|].
    rewrite Hx in Hq. injection Hq as <-. unfold spop_front in Hs. destruct (elems q) eqn:He; [|discriminate].
    pose proof (pop_out _ _ _ _ (dfirst d) Hr Hf He) as E. unfold pop_front.
    destruct (obj_ptr_two d (dfirst d) m) as [E1|(p & E1)]; rewrite E1 in *; cbn [obind] in *; [reflexivity|]. rewrite E. reflexivity.
  - eapply update_UB; [exact Hinv|]. intros q d Hx Hr. apply on_none in Hs as [Hs|(q' & Hq & Hs)]; [congruence|discriminate].
  - destruct (s !! y) as [q|] eqn:Hy.
    + destruct (inv_env _ _ _ _ _ _ Hinv Hy) as (d & Hv & Hr). unfold var. rewrite Hv. cbn [of_option obind].
      destruct (scopy q) as [q'|] eqn:Eq.
      * destruct (dcopy_ok esz Hblock _ _ _ _ _ Hr Hf Eq) as (t & o' & m1 & -> & _). cbn [obind].
        apply on_none in Hs as [Hs|(? & _ & [=])]. unfold update. rewrite (var_UB _ _ _ _ _ Hinv Hs). reflexivity.
      * apply scopy_none in Eq; [|specialize (HN _ _ Hy); lia]. erewrite dcopy_empty; [reflexivity|eassumption..].
    + rewrite (var_UB _ _ _ _ _ Hinv Hy). reflexivity.
  - destruct (s !! y) as [q|] eqn:Hy.
    + destruct (inv_env _ _ _ _ _ _ Hinv Hy) as (d & Hv & Hr). unfold var at 1. rewrite Hv. cbn [of_option obind dmove dswap].
      apply on_none in Hs as [Hs|(? & _ & [=])]. unfold update, var.
      destruct (decide (x = y)) as [->|Hne]; [rewrite lookup_insert in Hs; discriminate|].
      rewrite lookup_insert_ne in Hs by congruence; rewrite lookup_insert_ne by congruence. apply Hd in Hs. rewrite Hs. reflexivity.
    + rewrite (var_UB _ _ _ _ _ Hinv Hy). reflexivity.
  - destruct (s !! x) as [p|] eqn:Hx; [|rewrite (var_UB _ _ _ _ _ Hinv Hx); reflexivity].
    destruct (s !! y) as [q|] eqn:Hy; [discriminate|].
    destruct (inv_env _ _ _ _ _ _ Hinv Hx) as (d & Hv & Hr). unfold var at 1. rewrite Hv. cbn [of_option obind].
    rewrite (var_UB _ _ _ _ _ Hinv Hy). reflexivity.
Qed.
Definition total (cs : list (dcmd A)) : nat := list_sum (map more cs).
Lemma run_UB cs : forall w s e m N, inv w s e m -> small N s -> Z.of_nat N + Z.of_nat (total cs) < 2 ^ 31 - 1 -> srun s cs = None ->
  drun esz (e, m) cs = UB.
Proof.
  induction cs as [|c cs IH]; intros w s e m N Hinv HN Hlim Hs; cbn [srun drun] in *; [discriminate|].
  assert (E : total (c :: cs) = (more c + total cs)%nat) by reflexivity. rewrite E in Hlim.
  destruct (sstep s c) as [s1|] eqn:E1.
  - destruct (step_ok esz Hblock _ _ _ _ _ _ Hinv E1) as (w1 & e1 & m1 & -> & Hinv1). cbn [obind].
    eapply IH; [exact Hinv1|eapply small_step; eassumption|lia|exact Hs].
  - rewrite (step_UB w s e m c N); [reflexivity|exact Hinv|exact HN|lia|exact E1].
Qed.
Lemma small0 : small 0 ∅.
Proof. intros x q H. rewrite lookup_empty in H. discriminate. Qed.

(** ** Whole histories *)
Lemma exact cs : Z.of_nat (list_sum (map adds cs) + length (List.filter fronts cs)) < 2 ^ 31 - 1 ->
  match srun ∅ cs with
  | Some s => exists e m, drun esz (∅, mem0) cs = Ok (e, m) /\ (forall x, s !! x = None <-> e !! x = None) /\
      forall x q d, s !! x = Some q -> e !! x = Some d -> shows d m (elems q)
  | None => drun esz (∅, mem0) cs = UB
  end.
Proof.
  intros Hlim. destruct (srun ∅ cs) as [s|] eqn:Hs.
  - destruct (history esz cs s Hblock Hs) as (e & m & H1 & _ & H2 & H3). eauto.
  - eapply run_UB; [exact inv0|exact small0| |exact Hs].
    assert (E : total cs = (list_sum (map adds cs) + length (List.filter fronts cs))%nat).
    { clear. unfold total. induction cs as [|c cs IH]; [reflexivity|]. cbn [map List.filter].
      change (list_sum (more c :: map more cs)) with (more c + list_sum (map more cs))%nat.
      change (list_sum (adds c :: map adds cs)) with (adds c + list_sum (map adds cs))%nat.
      rewrite IH. unfold more. destruct (fronts c); cbn [length]; lia. }
    rewrite E. lia.
Qed.
Lemma back_exact cs : forallb (fun c => negb (fronts c)) cs = true -> Z.of_nat (list_sum (map adds cs)) < 2 ^ 31 - 1 ->
  match lrun ∅ cs with
  | Some ls => exists e m, drun esz (∅, mem0) cs = Ok (e, m) /\ (forall x, ls !! x = None <-> e !! x = None) /\
      forall x l d, ls !! x = Some l -> e !! x = Some d -> shows d m l
  | None => drun esz (∅, mem0) cs = UB
  end.
Proof.
  intros Hfr Hlim. destruct (lrun ∅ cs) as [ls|] eqn:Hl; [exact (back_history esz cs ls Hblock Hl Hfr Hlim)|].
  assert (Hs : srun ∅ cs = None).
  { destruct (srun ∅ cs) as [s|] eqn:E; [|reflexivity]. destruct (same_run cs ∅ ∅ s) as (ls & E1 & _); [|exact E|congruence].
    intros x. rewrite !lookup_empty. reflexivity. }
  pose proof (exact cs) as H. rewrite Hs in H. apply H.
  assert (E : List.filter fronts cs = []).
  { clear - Hfr. induction cs as [|c cs IH]; [reflexivity|]. cbn in *. apply andb_true_iff in Hfr as [H1 H2].
    destruct (fronts c); [discriminate|auto]. }
  rewrite E. cbn [length]. lia.
Qed.
Lemma q_lstep (ls : gmap nat (list A)) c : qspec ls c = lstep ls (q2d c).
Proof. destruct c; reflexivity. Qed.
Lemma k_lstep (ls : gmap nat (list A)) c : kspec ls c = lstep ls (k2d c).
Proof. destruct c; reflexivity. Qed.
Lemma q_lrun cs : forall ls : gmap nat (list A), qspecs ls cs = lrun ls (q2d <$> cs).
Proof.
  induction cs as [|c cs IH]; intros ls; cbn [qspecs fmap list_fmap lrun]; [reflexivity|]. rewrite q_lstep.
  destruct (lstep ls (q2d c)); [apply IH|reflexivity].
Qed.
Lemma queue_exact cs : Z.of_nat (qpushes cs) < 2 ^ 31 - 1 ->
  match qspecs ∅ cs with
  | Some ls => exists e m, qrun esz (∅, mem0) cs = Ok (e, m) /\ (forall x, ls !! x = None <-> e !! x = None) /\
      forall x l d, ls !! x = Some l -> e !! x = Some d -> shows d m l
  | None => qrun esz (∅, mem0) cs = UB
  end.
Proof.
  intros Hlim. rewrite qrun_eq, q_lrun. apply back_exact.
  - clear. induction cs as [|c cs IH]; [reflexivity|]. cbn. rewrite IH. destruct c; reflexivity.
  - assert (E : list_sum (map adds (q2d <$> cs)) = qpushes cs); [|lia].
    clear. unfold qpushes. induction cs as [|c cs IH]; [reflexivity|]. cbn [fmap list_fmap map List.filter].
    change (list_sum (?a :: ?l)) with (a + list_sum l)%nat. rewrite IH. destruct c; reflexivity.
Qed.
Lemma krun_UB N cs : forall w ls s e m, inv w s e m -> krel N ls s -> (forall x l, ls !! x = Some l -> (length l <= N)%nat) ->
  kwithin N ls cs -> Z.of_nat N + 3 < 2 ^ 31 -> kspecs ls cs = None -> krun esz (e, m) cs = UB.
Proof.
  induction cs as [|c cs IH]; intros w ls s e m Hinv Hrel Hlen Hw Hlim Hs; cbn [kspecs kwithin krun] in *; [discriminate|].
  rewrite kstep_eq. destruct (kspec ls c) as [ls1|] eqn:E.
  - destruct (Hw _ eq_refl) as [HN Hw1]. assert (HB : Z.of_nat (N / 8 + 1) < 2 ^ 31) by lia.
    destruct (k_step N ls s c ls1 Hrel HB HN E) as (s1 & E1 & Hrel1).
    destruct (step_ok esz Hblock _ _ _ _ _ _ Hinv E1) as (w1 & e1 & m1 & -> & Hinv1). cbn [obind]. eauto.
  - rewrite k_lstep in E. assert (Es : sstep s (k2d c) = None).
    { destruct (sstep s (k2d c)) as [s1|] eqn:X; [|reflexivity]. destruct Hrel as [Hsame _].
      destruct (same_step _ _ _ _ Hsame X) as (ls1 & E1 & _). congruence. }
    rewrite (step_UB w s e m (k2d c) (N + 1)%nat); [reflexivity|exact Hinv| | |exact Es].
    + intros x q Hx. destruct Hrel as [Hsame Hk]. destruct (Hk _ _ Hx) as [_ K2].
      specialize (Hlen x (elems q)). rewrite Hsame, Hx in Hlen. specialize (Hlen eq_refl). unfold len. lia.
    + destruct c; cbn; lia.
Qed.
Lemma stack_exact N cs : kwithin N ∅ cs -> Z.of_nat N + 3 < 2 ^ 31 ->
  match kspecs ∅ cs with
  | Some ls => exists e m, krun esz (∅, mem0) cs = Ok (e, m) /\ (forall x, ls !! x = None <-> e !! x = None) /\
      forall x l d, ls !! x = Some l -> e !! x = Some d -> shows d m l /\ dbs d <= Z.of_nat (N / 8 + 1)
  | None => krun esz (∅, mem0) cs = UB
  end.
Proof.
  intros Hw HN. destruct (kspecs ∅ cs) as [ls|] eqn:E.
  - apply (stack_history esz N cs ls Hblock E Hw). lia.
  - eapply krun_UB; [exact inv0| | |exact Hw|exact HN|exact E].
    + split; [intros x; rewrite !lookup_empty; reflexivity|]. intros x q H. rewrite lookup_empty in H. discriminate.
    + intros x l H. rewrite lookup_empty in H. discriminate.
Qed.
End exact.
