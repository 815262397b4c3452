(** Vector operations outside their preconditions. *)
From stdpp Require Import gmap list.
From Coq Require Import ZArith Lia ZifyBool ZifyNat.
From Verif Require Import Base ObjModel ObjSpec ObjProofs VectorModel VectorSpec VectorProofs.
Local Open Scope Z_scope.
Local Open Scope outcome_scope.

Section wrong.
Context {A : Type} (esz : Z) (dflt : A) (smk : bool) (Hesz : 1 <= esz).
Notation mem := (mem A).
Notation cell := (cell A).
Notation vrep := (vrep esz).
Notation post := (post esz).
Implicit Types (m : mem) (os : list (option A)).

(** No object is alive at offset [L] of block [b]. *)
Definition dead m (b : nat) (L : Z) : Prop :=
  match slot m (Ptr b L) with Ok (_, _, _, Live _) => False | _ => True end.
Lemma slot_not_fuel m p : slot m p <> Fuel.
Proof. unfold slot, of_option. destruct p; [discriminate|]. destruct (blocks m !! b); [cbn|discriminate]. destruct (0 <=? i); [|discriminate]. destruct (l !! Z.to_nat i); discriminate. Qed.
Lemma dead_load m b L : dead m b L -> load (Ptr b L) m = UB.
Proof. unfold dead, load. pose proof (slot_not_fuel m (Ptr b L)). destruct (slot m (Ptr b L)) as [[[[? ?] ?] []]| |]; cbn; tauto. Qed.
Lemma dead_assign m b L v : dead m b L -> assign (Ptr b L) v m = UB.
Proof. unfold dead, assign. pose proof (slot_not_fuel m (Ptr b L)). destruct (slot m (Ptr b L)) as [[[[? ?] ?] []]| |]; cbn; tauto. Qed.
Lemma dead_take m b L : dead m b L -> take_from (Ptr b L) m = UB.
Proof. unfold dead, take_from. pose proof (slot_not_fuel m (Ptr b L)). destruct (slot m (Ptr b L)) as [[[[? ?] ?] []]| |]; cbn; tauto. Qed.
Lemma dead_dtor m b L : dead m b L -> dtor (Ptr b L) m = UB.
Proof. unfold dead, dtor. pose proof (slot_not_fuel m (Ptr b L)). destruct (slot m (Ptr b L)) as [[[[? ?] ?] []]| |]; cbn; tauto. Qed.
Lemma dead_upd m b L i cs (c : cell) ev : dead m b L -> slot m (Ptr b i) = Ok (b, i, cs, c) -> i <> L -> forall c', dead (upd m b (<[Z.to_nat i := c']> cs) ev) b L.
Proof.
  intros D S N c'. apply slot_ok in S as (_ & Hb & Hi & Hc). unfold dead in *. cbn [slot] in *.
  rewrite upd_blocks. rewrite Hb in D. cbn [of_option obind] in *.
  destruct (Z.leb_spec 0 L); [|exact I]. rewrite list_lookup_insert_ne by lia. destruct (cs !! Z.to_nat L); exact D.
Qed.
Lemma slot_same m b i x y (cs : list cell) c : slot m (Ptr b i) = Ok (x, y, cs, c) -> x = b /\ y = i.
Proof. intros S. apply slot_ok in S as (E & _). injection E as -> ->. auto. Qed.
Lemma dead_take_keep m b i L v m1 : dead m b L -> take_from (Ptr b i) m = Ok (v, m1) -> dead m1 b L.
Proof.
  intros D H. destruct (Z.eq_dec i L) as [->|N]; [rewrite (dead_take _ _ _ D) in H; discriminate|].
  unfold take_from in H. destruct (slot m (Ptr b i)) as [[[[x y] cs] [|w]]| |] eqn:S; cbn in H; try discriminate.
  destruct (slot_same _ _ _ _ _ _ _ S) as [-> ->]. injection H as <- <-. eapply dead_upd; eassumption.
Qed.
Lemma dead_assign_keep m b i L v m1 : dead m b L -> assign (Ptr b i) v m = Ok m1 -> dead m1 b L.
Proof.
  intros D H. destruct (Z.eq_dec i L) as [->|N]; [rewrite (dead_assign _ _ _ _ D) in H; discriminate|].
  unfold assign in H. destruct (slot m (Ptr b i)) as [[[[x y] cs] [|w]]| |] eqn:S; cbn in H; try discriminate.
  destruct (slot_same _ _ _ _ _ _ _ S) as [-> ->]. injection H as <-. eapply dead_upd; eassumption.
Qed.
(** Moving between different slots: undefined, or both are alive and stay so. *)
Lemma move_cases m b i j L : i <> j -> dead m b L ->
  move_assign smk (Ptr b i) (Ptr b j) m = UB \/ (i <> L /\ j <> L /\ exists m1, move_assign smk (Ptr b i) (Ptr b j) m = Ok m1 /\ dead m1 b L).
Proof.
  intros N D. unfold move_assign. replace (ptr_eqb (Ptr b i) (Ptr b j)) with false
    by (symmetry; apply not_true_iff_false; rewrite ptr_eqb_eq; congruence).
  destruct (take_from (Ptr b j) m) as [[v m1]| |] eqn:T; cbn; [|auto|].
  - pose proof (dead_take_keep _ _ _ _ _ _ D T) as D1. destruct (assign (Ptr b i) v m1) as [m2| |] eqn:G; [|auto|].
    + right. split; [intros ->; rewrite (dead_assign _ _ _ _ D1) in G; discriminate|].
      split; [intros ->; rewrite (dead_take _ _ _ D) in T; discriminate|]. exists m2. split; [reflexivity|].
      exact (dead_assign_keep _ _ _ _ _ _ D1 G).
    + unfold assign in G. pose proof (slot_not_fuel m1 (Ptr b i)). destruct (slot m1 (Ptr b i)) as [[[[? ?] ?] []]| |]; cbn in G; congruence.
  - unfold take_from in T. pose proof (slot_not_fuel m (Ptr b j)). destruct (slot m (Ptr b j)) as [[[[? ?] ?] []]| |]; cbn in T; congruence.
Qed.
Lemma shift_range_wrong b L k : forall i j m, j < i -> i <= L < i + Z.of_nat k -> dead m b L -> shift_range smk k (Ptr b 0) i j m = UB.
Proof.
  induction k as [|k IH]; intros i j m Hij HL D; [lia|]. cbn [shift_range padd obind]. rewrite !Z.add_0_l.
  destruct (move_cases m b i j L ltac:(lia) D) as [->|(Ni & Nj & m1 & -> & D1)]; [reflexivity|]. cbn [obind]. apply IH; [lia|lia|exact D1].
Qed.

Lemma rep_dead v os cap m b : vrep v os cap m -> v = mkv b (length os) cap -> forall L, Z.of_nat (length os) <= L \/ L < 0 -> dead m b L.
Proof.
  intros (_ & Hle & H) E L HL. destruct H as [(-> & _)|(b' & E' & Hb)]; [discriminate E|]. rewrite E in E'. injection E' as <-.
  unfold dead. cbn [slot]. rewrite Hb. cbn [of_option obind]. destruct (Z.leb_spec 0 L); [|exact I].
  unfold slots. rewrite lookup_app_r by (rewrite fmap_length; lia).
  destruct (replicate _ _ !! _) as [c|] eqn:R; [|exact I]. apply lookup_replicate in R as [-> _]. exact I.
Qed.
Lemma rep_cases v os cap m : vrep v os cap m -> (v = vec0 /\ os = []) \/ exists b, v = mkv b (length os) cap.
Proof. intros (_ & _ & [(-> & -> & _)|(b & -> & _)]); eauto. Qed.

(** Nothing to pop or erase. *)
Lemma erase_nothing v cap m : vrep v [] cap m -> erase_at smk (vstart v) v m = UB.
Proof.
  intros R. unfold erase_at. rewrite (vsize_ok esz Hesz _ _ _ _ R), (vcap_ok esz Hesz _ _ _ _ R).
  destruct (rep_cases _ _ _ _ R) as [(-> & _)|(b & E)].
  - cbn. reflexivity.
  - rewrite E at 1 2. cbn [mkv vstart psub]. rewrite Nat.eqb_refl. cbn [obind length].
    replace ((0 - 0) mod 2 ^ 64) with 0 by reflexivity. replace ((Z.of_nat 0 - 1) mod 2 ^ 64) with (2 ^ 64 - 1) by reflexivity.
    rewrite E at 1. cbn [mkv vstart shift_down padd obind]. replace (0 <? 2 ^ 64 - 1) with true by reflexivity.
    cbn [obind]. destruct (move_cases m b (0 + 0) (0 + (0 + 1)) 1 ltac:(lia)) as [->|(_ & N & _)]; [|reflexivity|lia].
    apply (rep_dead _ _ _ _ _ R E). cbn. lia.
Qed.
Lemma pop_nothing v cap m : vrep v [] cap m -> pop_back smk v m = UB.
Proof.
  intros R. unfold pop_back, erase_at. rewrite (vsize_ok esz Hesz _ _ _ _ R), (vcap_ok esz Hesz _ _ _ _ R).
  destruct (rep_cases _ _ _ _ R) as [(-> & _)|(b & E)]; [reflexivity|].
  pose proof (rep_dead _ _ _ _ _ R E) as D. rewrite E. cbn [mkv vstart vfinish padd obind psub length]. rewrite Nat.eqb_refl. cbn [obind].
  replace ((Z.of_nat 0 + -1 - 0) mod 2 ^ 64) with (2 ^ 64 - 1) by reflexivity. replace ((Z.of_nat 0 - 1) mod 2 ^ 64) with (2 ^ 64 - 1) by reflexivity.
  cbn [shift_down]. rewrite Z.ltb_irrefl. cbn [obind]. rewrite dead_dtor; [reflexivity|]. apply D. right. reflexivity.
Qed.
(** erase(end()) *)
Lemma erase_last v os x cap m p : vrep v (os ++ [x]) cap m -> fresh m -> padd (vstart v) (Z.of_nat (length os) + 1) = Ok p ->
  post (own v) m (erase_at smk p v m) os cap.
Proof.
  intros R Hf Hp. replace (erase_at smk p v m) with (pop_back smk v m); [exact (pop_back_ok esz smk Hesz _ _ _ _ _ R Hf)|].
  assert (Hl : length (os ++ [x]) = S (length os)) by (rewrite app_length; cbn; lia).
  assert (Hc : (S (length os) <= cap)%nat) by (rewrite <- Hl; apply R). pose proof (fits_lt esz Hesz _ (proj1 R)) as Hlt.
  unfold pop_back. destruct (rep_cases _ _ _ _ R) as [(_ & X)|(b & E)]; [destruct os; discriminate X|].
  unfold erase_at. rewrite (vsize_ok esz Hesz _ _ _ _ R), (vcap_ok esz Hesz _ _ _ _ R). rewrite E in *. cbn [mkv vstart vfinish padd obind psub] in *.
  injection Hp as <-. cbn [psub]. rewrite Nat.eqb_refl. cbn [obind]. rewrite Hl. rewrite !Z.mod_small by lia. cbn [shift_down].
  replace (Z.of_nat (S (length os)) + -1 - 0 <? Z.of_nat (S (length os)) - 1) with false by lia.
  replace (0 + (Z.of_nat (length os) + 1) - 0 <? Z.of_nat (S (length os)) - 1) with false by lia. reflexivity.
Qed.
(** Assigning behind the end. *)
Lemma set_wrong i x v os cap m : vrep v os cap m -> Z.of_nat (length os) <= i -> vset i (AVal x) v m = UB.
Proof.
  intros R Hi. unfold vset. destruct (rep_cases _ _ _ _ R) as [(-> & ->)|(b & E)].
  - cbn [vstart vec0 padd]. destruct (i =? 0); reflexivity.
  - pose proof (rep_dead _ _ _ _ _ R E) as D. rewrite E. cbn [mkv vstart padd obind read_arg]. apply dead_assign, D. lia.
Qed.
Lemma get_wrong i v os cap m : vrep v os cap m -> Z.of_nat (length os) <= i -> vget i v m = UB.
Proof.
  intros R Hi. unfold vget. destruct (rep_cases _ _ _ _ R) as [(-> & ->)|(b & E)].
  - cbn [vstart vec0 padd]. destruct (i =? 0); reflexivity.
  - pose proof (rep_dead _ _ _ _ _ R E) as D. rewrite E. cbn [mkv vstart padd obind]. apply dead_load, D. lia.
Qed.
(** erase(p, q) with q before p *)
Lemma erase_range_wrong i j p q v os cap m : vrep v os cap m -> 0 <= j < i -> i <= Z.of_nat (length os) ->
  padd (vstart v) i = Ok p -> padd (vstart v) j = Ok q -> erase_range smk p q v m = UB.
Proof.
  intros R Hj Hi Hp Hq. assert (Hlec : (length os <= cap)%nat) by apply R. pose proof (fits_lt esz Hesz _ (proj1 R)) as Hlt.
  unfold erase_range. rewrite (psub_idx esz Hesz _ _ _ _ _ _ R Hp), (psub_idx esz Hesz _ _ _ _ _ _ R Hq) by lia. cbn [obind].
  destruct (rep_cases _ _ _ _ R) as [(-> & ->)|(b & E)]; [cbn in Hi; lia|].
  pose proof (rep_dead _ _ _ _ _ R E) as D. rewrite E in *. cbn [mkv vstart vfinish padd obind] in *.
  injection Hp as <-. injection Hq as <-. rewrite psub_small by lia. cbn [obind].
  rewrite (shift_range_wrong b (Z.of_nat (length os))); [reflexivity|lia|lia|]. apply D. lia.
Qed.
(** erase(p, p) for elements that a self-move empties *)
Lemma shift_range_self b : forall todo m (pre post : list cell) i, smk = false ->
  blocks m !! b = Some (pre ++ (Live <$> todo) ++ post) -> fresh m -> i = Z.of_nat (length pre) -> exists m',
  shift_range smk (length todo) (Ptr b 0) i i m = Ok m' /\
  blocks m' !! b = Some (pre ++ (Live <$> replicate (length todo) None) ++ post) /\ fr [b] m [b] m'.
Proof.
  induction todo as [|a todo IH]; intros m pre post0 i Hs Hb Hf Hi.
  - exists m. split; [reflexivity|]. split; [exact Hb|]. apply fr_refl. exact Hf.
  - cbn [length shift_range padd obind]. rewrite !Z.add_0_l. cbn [fmap list_fmap app] in Hb.
    destruct (move_self_app smk m b i a pre _ Hb Hi) as (m1 & E & Hb1 & Hfr1). rewrite E. cbn [obind]. rewrite Hs in Hb1 at 1.
    destruct (IH m1 (pre ++ [Live None]) post0 (i + 1) Hs) as (m' & E' & Hb' & Hfr').
    + rewrite Hb1, <- app_assoc. reflexivity.
    + eapply fr_fresh, Hfr1. exact Hf.
    + rewrite app_length. cbn. lia.
    + exists m'. split; [exact E'|]. split; [rewrite Hb', <- app_assoc; reflexivity|].
      eapply fr_trans; [apply Hfr1; exact Hf|exact Hfr'].
Qed.
Lemma erase_range_self i p q v os cap m : vrep v os cap m -> fresh m -> 0 <= i <= Z.of_nat (length os) -> smk = false ->
  padd (vstart v) i = Ok p -> padd (vstart v) i = Ok q ->
  post (own v) m (erase_range smk p q v m) (take (Z.to_nat i) os ++ replicate (Z.to_nat (Z.of_nat (length os) - i)) None) cap.
Proof.
  intros R Hf Hi Hs Hp Hq. unfold erase_range.
  assert (Hlec : (length os <= cap)%nat) by apply R. assert (Hfit : fits esz cap) by apply R. pose proof (fits_lt esz Hesz _ Hfit) as Hlt.
  rewrite (psub_idx esz Hesz _ _ _ _ _ _ R Hp), (psub_idx esz Hesz _ _ _ _ _ _ R Hq) by lia. cbn [obind].
  rewrite (vsize_ok esz Hesz _ _ _ _ R).
  destruct R as (_ & _ & [(-> & -> & ->)|(b & -> & Hb)]).
  - cbn in Hi. replace i with 0 in * by lia. cbn in Hq. injection Hq as <-.
    change (take (Z.to_nat 0) [] ++ replicate (Z.to_nat (Z.of_nat (length (@nil (option A))) - 0)) None) with (@nil (option A)).
    cbn. eexists _, _. split; [reflexivity|]. split; [|apply fr_refl; exact Hf].
    split; [exact Hfit|]. split; [cbn; lia|]. left. auto.
  - cbn [mkv vstart vfinish padd obind] in *. injection Hp as <-. injection Hq as <-.
    rewrite psub_small by lia. cbn [obind].
    destruct (shift_range_self b (drop (Z.to_nat i) os) m (Live <$> take (Z.to_nat i) os) (replicate (cap - length os) Raw) i Hs)
      as (m1 & E & Hb1 & Hfr1).
    + rewrite Hb. unfold slots. rewrite <- (take_drop (Z.to_nat i) os) at 1. rewrite !fmap_app, <- !app_assoc. reflexivity.
    + exact Hf.
    + rewrite len_live, take_length. lia.
    + replace (Z.to_nat (Z.of_nat (length os) - (0 + i))) with (length (drop (Z.to_nat i) os)) by (rewrite drop_length; lia).
      rewrite E. cbn [obind].
      replace (Z.to_nat (Z.of_nat (length os) - (i + (Z.of_nat (length os) - (0 + i))))) with 0%nat by lia. cbn [destroy_n obind].
      eexists _, _. split; [reflexivity|].
      replace (Z.to_nat (Z.of_nat (length os) - i)) with (length (drop (Z.to_nat i) os)) by (rewrite drop_length; lia).
      assert (Hlen : length (take (Z.to_nat i) os ++ replicate (length (drop (Z.to_nat i) os)) None) = length os)
        by (rewrite app_length, take_length, replicate_length, drop_length; lia).
      split.
      * split; [exact Hfit|]. rewrite Hlen. split; [exact Hlec|]. right. exists b. split.
        -- unfold set_finish, mkv. cbn [vstart veos]. f_equal. f_equal. lia.
        -- rewrite Hb1. unfold slots. rewrite Hlen, fmap_app, <- app_assoc. reflexivity.
      * rewrite own_set_finish, own_mkv. exact Hfr1.
Qed.
End wrong.
