(** Facts about reachable vectors: sequence behaviour, lifetimes, aliasing arguments, growth. *)
From stdpp Require Import gmap list.
From Coq Require Import ZArith Lia ZifyBool ZifyNat.
From Verif Require Import Base ObjModel ObjSpec ObjProofs VectorModel VectorSpec VectorProofs VectorRun.
Local Open Scope Z_scope.
Local Open Scope outcome_scope.

Section facts.
Context {A : Type} (esz : Z) (dflt : A) (smk : bool).
Notation mem := (mem A).
Notation store := (gmap nat (list A)).
Notation env := (gmap nat vec).

(** State after a history that respects the preconditions, with all sizes at most [M] and 2M elements
    less than 2^63 bytes. *)
Definition reached (M : Z) (cs : list (vcmd A)) (s : store) (e : env) (m : mem) : Prop :=
  1 <= esz /\ 2 * M * esz < 2 ^ 63 /\ srun dflt smk ∅ cs = Some s /\ within dflt smk M ∅ cs /\
  vrun esz dflt smk (∅, mem0) cs = Ok (e, m).

Lemma reached_inv M cs s e m : reached M cs s e m -> inv esz M s e m.
Proof.
  intros (He & HM & Hs & Hw & Hr). destruct (run_ok esz dflt smk He M HM cs ∅ ∅ mem0 s (inv0 _ _) Hs Hw) as (e' & m' & E & H).
  rewrite Hr in E. injection E as <- <-. exact H.
Qed.
Lemma within_sizes M cs : forall s s', sizes_ok M s -> srun dflt smk s cs = Some s' -> within dflt smk M s cs -> sizes_ok M s'.
Proof.
  induction cs as [|c cs IH]; intros s s' Hz Hs Hw; cbn [srun within] in *; [injection Hs as <-; exact Hz|].
  destruct (sstep dflt smk s c) as [s1|] eqn:E; [|discriminate]. destruct Hw as [_ Hw]. destruct (Hw _ eq_refl) as [Z W]. eauto.
Qed.
Lemma reached_size M cs s e m x l : reached M cs s e m -> s !! x = Some l -> zlen l <= M.
Proof.
  intros (He & HM & Hs & Hw & Hr) Hx. eapply (within_sizes M cs ∅ s); [|exact Hs|exact Hw|exact Hx].
  intros y k Hy. rewrite lookup_empty in Hy. discriminate.
Qed.

Lemma history M cs s : 1 <= esz -> 2 * M * esz < 2 ^ 63 -> srun dflt smk ∅ cs = Some s -> within dflt smk M ∅ cs ->
  exists e m, vrun esz dflt smk (∅, mem0) cs = Ok (e, m) /\ (forall x, s !! x = None <-> e !! x = None) /\
  forall x l v, s !! x = Some l -> e !! x = Some v -> shows v m l /\
    forall eqb y k w, (forall a b : A, eqb a b = true <-> a = b) -> s !! y = Some k -> e !! y = Some w -> zlen l < 2 ^ 31 ->
      exists r, vequal eqb v w m = Ok r /\ (r = true <-> l = k).
Proof.
  intros He HM Hs Hw. destruct (run_ok esz dflt smk He M HM cs ∅ ∅ mem0 s (inv0 _ _) Hs Hw) as (e & m & E & Hinv).
  exists e, m. split; [exact E|]. pose proof Hinv as (_ & Hd & Hr & _). split; [exact Hd|].
  intros x l v Hx Hv. destruct (Hr _ _ _ Hx Hv) as (cap & Hrep & _). split; [eapply shows_ok; eassumption|].
  intros eqb y k w Heq Hy Hv' Hl. destruct (Hr _ _ _ Hy Hv') as (cap' & Hrep' & _). eapply vequal_ok; eassumption.
Qed.
Lemma equal_big M cs s e m x y l v w (eqb : A -> A -> bool) : reached M cs s e m -> (forall a b, eqb a b = true <-> a = b) ->
  s !! x = Some l -> s !! y = Some l -> e !! x = Some v -> e !! y = Some w -> 2 ^ 31 <= zlen l -> vequal eqb v w m = UB.
Proof.
  intros H Heq Hx Hy Hv Hw Hl. pose proof (reached_inv _ _ _ _ _ H) as (_ & _ & Hr & _). destruct H as (He & _).
  destruct (Hr _ _ _ Hx Hv) as (c & R1 & _), (Hr _ _ _ Hy Hw) as (d & R2 & _). eapply vequal_big; eassumption.
Qed.

Lemma lifetimes cs e m : vrun esz dflt smk (∅, mem0) cs = Ok (e, m) -> legal_trace (trace m).
Proof. intros H. apply coh_legal. eapply run_coh; exact H. Qed.
Lemma all_gone M cs e m : reached M cs ∅ e m -> objects_gone (trace m) /\ nonempty_buffers_gone (trace m).
Proof.
  intros H. pose proof (reached_inv _ _ _ _ _ H) as (_ & Hd & _ & _ & Hcov). destruct H as (_ & _ & _ & _ & H).
  apply coh_gone_nonempty; [eapply run_coh; exact H|]. intros b cs' Hb. destruct (Hcov _ _ Hb) as [X|(x & v & Hx & _)]; [exact X|].
  assert (e !! x = None) by (apply Hd, lookup_empty). congruence.
Qed.

(** Capacity. *)
Lemma cap_bound M cs s e m x v : reached M cs s e m -> e !! x = Some v -> exists c, vcapacity v = Ok c /\ c <= 2 * M.
Proof.
  intros H Hv. pose proof (reached_inv _ _ _ _ _ H) as (_ & Hd & Hr & _). destruct H as (He & _).
  destruct (s !! x) as [l|] eqn:Hx; [|apply Hd in Hx; congruence].
  destruct (Hr _ _ _ Hx Hv) as (cap & Hrep & Hc). exists (Z.of_nat cap). split; [eapply vcap_ok; eassumption|exact Hc].
Qed.
Lemma pushes_cost (He : 1 <= esz) x c0 base l : forall e v os cap (m : mem), e !! x = Some v -> vrep esz v os cap m -> fresh m ->
  (cap = c0 \/ cap <= 2 * length os)%nat -> (c0 <= cap)%nat -> (count is_move (trace m) + c0 <= base + cap)%nat ->
  (Z.of_nat c0 + Z.of_nat (2 * (length os + length l)) + 1) * esz < 2 ^ 63 ->
  exists e' m' v' cap', vrun esz dflt smk (e, m) (map (CPushBack x) l) = Ok (e', m') /\ e' !! x = Some v' /\
    vrep esz v' (os ++ (Some <$> l)) cap' m' /\ (cap' = c0 \/ cap' <= 2 * (length os + length l))%nat /\ (c0 <= cap')%nat /\
    (count is_move (trace m') + c0 <= base + cap')%nat.
Proof.
  induction l as [|a l IH]; intros e v os cap m Hv Hr Hf Hc0 Hge Hcnt Hlim; cbn [map vrun].
  - exists e, m, v, cap. cbn. rewrite app_nil_r, Nat.add_0_r. auto 10.
  - cbn [length] in Hlim. assert (Hle : (length os <= cap)%nat) by apply Hr.
    assert (Hg : growcap cap (S (length os)) = cap /\ (S (length os) <= cap)%nat \/
      growcap cap (S (length os)) = Nat.max (2 * cap) 1 /\ cap = length os).
    { unfold growcap. destruct (Nat.leb_spec (S (length os)) cap); [left; auto|right; lia]. }
    assert (Hfit : fits esz (growcap cap (S (length os)))).
    { unfold fits. destruct Hg as [[-> _]|[-> ?]]; nia. }
    destruct (push_back_ok esz He a v os cap m Hr Hf Hfit) as (v1 & m1 & E & Hr1 & Hfr & Hc1).
    cbn [vstep]. unfold update, var. rewrite Hv. cbn [of_option obind]. rewrite E. cbn [obind].
    destruct (IH (<[x := v1]> e) v1 (os ++ [Some a]) (growcap cap (S (length os))) m1) as (e' & m' & v' & cap' & R1 & R2 & R3 & R4 & R5 & R6).
    + apply lookup_insert.
    + exact Hr1.
    + eapply fr_fresh; exact Hfr.
    + rewrite app_length. cbn [length]. destruct Hg as [[-> ?]|[-> ?]]; lia.
    + destruct Hg as [[-> ?]|[-> ?]]; lia.
    + destruct Hg as [[-> ?]|[-> ?]].
      * replace (S (length os) <=? cap)%nat with true in Hc1 by lia. lia.
      * replace (S (length os) <=? cap)%nat with false in Hc1 by lia. lia.
    + rewrite app_length. cbn [length]. nia.
    + exists e', m', v', cap'. rewrite app_length in R4. cbn [length] in R4. rewrite <- app_assoc in R3.
      replace (length os + length (a :: l))%nat with (length os + 1 + length l)%nat by (cbn; lia). auto 10.
Qed.
Lemma push_cost M cs s e m x l : reached M cs s e m -> s !! x = Some [] -> (2 * M + 2 * zlen l + 1) * esz < 2 ^ 63 ->
  exists e' m', vrun esz dflt smk (e, m) (map (CPushBack x) l) = Ok (e', m') /\
    (count is_move (trace m') <= count is_move (trace m) + 2 * length l)%nat.
Proof.
  intros H Hx Hlim. pose proof (reached_inv _ _ _ _ _ H) as Hinv. destruct H as (He & _).
  destruct (inv_env _ _ _ _ _ _ _ Hinv Hx) as (v & cap & Hv & Hr & Hc).
  destruct (pushes_cost He x cap (count is_move (trace m)) l e v [] cap m) as (e' & m' & v' & cap' & R1 & R2 & R3 & R4 & R5 & R6); try assumption.
  - exact (proj1 Hinv).
  - left. reflexivity.
  - lia.
  - lia.
  - unfold zlen in Hlim. cbn [length]. nia.
  - exists e', m'. split; [exact R1|]. cbn [length] in R4. lia.
Qed.

(** Arguments that are elements of the same vector. *)
Lemma load_elem (m : mem) v os cap i p x : vrep esz v os cap m -> os !! i = Some x -> padd (vstart v) (Z.of_nat i) = Ok p -> load p m = Ok x.
Proof. intros Hr Hx Hp. pose proof (vget_ok esz _ _ _ _ _ _ Hr Hx) as H. unfold vget in H. rewrite Hp in H. exact H. Qed.
Lemma load_dead (m : mem) b i : (forall cs, blocks m !! b = Some cs -> cs = []) -> load (Ptr b i) m = UB.
Proof.
  intros H. unfold load, slot. destruct (blocks m !! b) as [cs|]; cbn [of_option obind]; [|reflexivity].
  rewrite (H _ eq_refl). destruct (0 <=? i); reflexivity.
Qed.
Lemma old_dead (m m' : mem) b o' : fresh m -> fr [b] m o' m' -> ~ In b o' -> forall cs, blocks m' !! b = Some cs -> cs = [].
Proof.
  intros Hf (_ & _ & _ & H4 & _) Hn cs Hb. destruct (H4 _ _ Hb) as [X|[X|[X _]]]; [contradiction|exact X|]. exfalso. apply X. left. reflexivity.
Qed.

Lemma push_alias M cs s e m x l v i a p : reached M cs s e m -> s !! x = Some l -> e !! x = Some v -> l !! i = Some a ->
  padd (vstart v) (Z.of_nat i) = Ok p -> exists c, vcapacity v = Ok c /\
  (zlen l < c -> exists v' m', push_back esz (ARef p) v m = Ok (v', m') /\ shows v' m' (l ++ [a])) /\
  (c <= zlen l -> push_back esz (ARef p) v m = UB).
Proof.
  intros H Hx Hv Hi Hp. pose proof (reached_inv _ _ _ _ _ H) as Hinv. pose proof (reached_size _ _ _ _ _ _ _ H Hx) as Hsz.
  destruct H as (He & HM & _). pose proof Hinv as (Hf & _ & Hr & _). destruct (Hr _ _ _ Hx Hv) as (cap & Hrep & Hc).
  exists (Z.of_nat cap). split; [eapply vcap_ok; eassumption|]. unfold zlen in *.
  assert (Hxi : (Some <$> l : list (option A)) !! i = Some (Some a)) by (rewrite list_lookup_fmap, Hi; reflexivity).
  assert (Hil : (i < length l)%nat) by (eapply lookup_lt_Some; exact Hi).
  split; intros Hlt.
  - pose proof (load_elem _ _ _ _ _ _ _ Hrep Hxi Hp) as Hload.
    destruct (push_back_gen esz He (ARef p) (Some a) v _ cap m Hrep Hf) as (v' & m' & E & Hr' & _).
    + rewrite fmap_length. unfold growcap. replace (S (length l) <=? cap)%nat with true by lia. apply Hrep.
    + right. rewrite fmap_length. split; [lia|]. cbn [read_arg]. rewrite Hload. reflexivity.
    + exists v', m'. split; [exact E|]. apply (shows_ok esz dflt He _ _ (growcap cap (S (length (Some <$> l))))). rewrite fmap_app. exact Hr'.
  - unfold push_back, push_back_with. rewrite (vsize_ok esz He _ _ _ _ Hrep), fmap_length. cbn [obind].
    destruct (ensure_ok esz He 0 (Z.of_nat (length l) + 1) v _ cap m Hrep Hf) as (v1 & m1 & E & Hr1 & Hfr & _ & Hnew & _).
    + lia.
    + apply (fits_2M esz He M HM). unfold growcap. destruct (Z.to_nat (Z.of_nat (length l) + 1) <=? cap)%nat; [exact Hc|].
      assert (cap <= length l)%nat by lia. lia.
    + unfold ensure. rewrite E. cbn [obind read_arg].
      destruct Hrep as (Hfit & Hle & [(_ & X & _)|(b & Ev & Hb)]); [destruct l; [discriminate Hi|discriminate X]|].
      subst v. cbn [mkv vstart padd] in Hp. injection Hp as <-. rewrite own_mkv in Hfr.
      rewrite load_dead; [reflexivity|]. eapply old_dead; [exact Hf|exact Hfr|].
      intros Hin. destruct (Hnew _ Hin) as [Y|Y]; [lia|]. subst b. rewrite (Hf _ (le_n _)) in Hb. discriminate.
Qed.

(** insert(begin() + i, v[j]): what is inserted when there is room. *)
Definition aliased (l : list A) (i j : nat) : option A :=
  if (j <? i)%nat then l !! j else if (j =? i)%nat then None else l !! (j - 1)%nat.
Lemma insert_alias M cs s e m x l v (i j : nat) a p q : reached M cs s e m -> s !! x = Some l -> e !! x = Some v ->
  (i <= length l)%nat -> l !! j = Some a -> padd (vstart v) (Z.of_nat i) = Ok p -> padd (vstart v) (Z.of_nat j) = Ok q ->
  exists c, vcapacity v = Ok c /\
  (zlen l < c -> exists v' m', insert_at esz dflt smk p (ARef q) v m = Ok (v', m') /\
     viter v' m' = Ok (take i (Some <$> l) ++ aliased l i j :: drop i (Some <$> l))) /\
  (c <= zlen l -> insert_at esz dflt smk p (ARef q) v m = UB).
Proof.
  intros H Hx Hv Hi Hj Hp Hq. pose proof (reached_inv _ _ _ _ _ H) as Hinv. pose proof (reached_size _ _ _ _ _ _ _ H Hx) as Hsz.
  destruct H as (He & HM & _). pose proof Hinv as (Hf & _ & Hr & _). destruct (Hr _ _ _ Hx Hv) as (cap & Hrep & Hc).
  exists (Z.of_nat cap). split; [eapply vcap_ok; eassumption|]. unfold zlen in *.
  assert (Hjl : (j < length l)%nat) by (eapply lookup_lt_Some; exact Hj).
  split; intros Hlt.
  - destruct (insert_gen esz dflt smk He (Z.of_nat i) p (ARef q) (aliased l i j) v _ cap m Hrep Hf) as (v' & m' & E & Hr' & _).
    + rewrite fmap_length. lia.
    + rewrite fmap_length. unfold growcap. replace (S (length l) <=? cap)%nat with true by lia. apply Hrep.
    + exact Hp.
    + right. rewrite fmap_length, Nat2Z.id. split; [lia|]. intros b m' h Ho Hb Hh. cbn [read_arg].
      assert (Eq : q = Ptr b (Z.of_nat j)).
      { destruct Hrep as (_ & _ & [(-> & _)|(b'' & -> & _)]); [discriminate|]. rewrite own_mkv in Ho.
        injection Ho as ->. cbn [mkv vstart padd] in Hq. rewrite Z.add_0_l in Hq. congruence. }
      subst q. set (os := Some <$> l : list (option A)) in *.
      assert (Hlos : length os = length l) by apply fmap_length.
      assert (Hload : load (Ptr b (Z.of_nat j)) m' = Ok (aliased l i j)).
      { unfold load, slot. rewrite Hb. cbn [of_option obind]. replace (0 <=? Z.of_nat j) with true by lia. rewrite Nat2Z.id.
        assert (Hlt1 : length (Live <$> take i os : list (cell A)) = i) by (rewrite fmap_length, take_length; lia).
        unfold aliased. destruct (Nat.ltb_spec j i) as [C1|C1]; [|destruct (Nat.eqb_spec j i) as [C2|C2]].
        - rewrite lookup_app_l by lia. rewrite list_lookup_fmap, lookup_take by lia. unfold os. rewrite list_lookup_fmap, Hj. reflexivity.
        - rewrite lookup_app_r by lia. rewrite Hlt1. replace (j - i)%nat with 0%nat by lia. cbn.
          destruct Hh as [[_ Hh]|[-> _]]; [lia|reflexivity].
        - rewrite lookup_app_r by lia. rewrite Hlt1. replace (j - i)%nat with (S (j - 1 - i)) by lia.
          change (?c :: ?k) with ([c] ++ k). rewrite lookup_app_r by (cbn; lia). cbn [length].
          replace (S (j - 1 - i) - 1)%nat with (j - 1 - i)%nat by lia.
          rewrite lookup_app_l by (rewrite fmap_length, drop_length; lia).
          rewrite list_lookup_fmap, lookup_drop. replace (i + (j - 1 - i))%nat with (j - 1)%nat by lia.
          unfold os. rewrite list_lookup_fmap.
          destruct (lookup_lt_is_Some_2 l (j - 1)) as [c Hc']; [lia|]. rewrite Hc'. reflexivity. }
      rewrite Hload. reflexivity.
    + exists v', m'. split; [exact E|]. rewrite Nat2Z.id in Hr'.
      unfold viter. rewrite (vsize_ok esz He _ _ _ _ Hr'). cbn [obind]. rewrite Nat2Z.id.
      destruct Hr' as (_ & _ & [(_ & X & _)|(b & -> & Hb)]); [destruct (take i (Some <$> l)); discriminate X|].
      cbn [mkv vstart vfinish]. eapply (iterate_ok _ _ _ b []); [lia|exact Hb|reflexivity|reflexivity].
  - unfold insert_at.
    rewrite (psub_idx esz He _ _ _ _ _ _ Hrep Hp)
      by (destruct Hrep as (_ & X & _); rewrite fmap_length in X; lia). cbn [obind].
    rewrite (vsize_ok esz He _ _ _ _ Hrep), fmap_length. cbn [obind].
    destruct (ensure_ok esz He 0 (Z.of_nat (length l) + 1) v _ cap m Hrep Hf) as (v1 & m1 & E & Hr1 & Hfr & _ & Hnew & _).
    + lia.
    + apply (fits_2M esz He M HM). unfold growcap. destruct (Z.to_nat (Z.of_nat (length l) + 1) <=? cap)%nat; [exact Hc|].
      assert (cap <= length l)%nat by lia. lia.
    + unfold ensure. rewrite E. cbn [obind].
      set (cap1 := growcap cap (Z.to_nat (Z.of_nat (length l) + 1))) in *.
      assert (Hcap1 : (length l < cap1)%nat) by (unfold cap1; pose proof (growcap_ge cap (Z.to_nat (Z.of_nat (length l) + 1))); lia).
      rewrite (vsize_ok esz He _ _ _ _ Hr1), fmap_length.
      assert (Hf1 := fr_fresh _ _ _ _ Hfr).
      destruct Hr1 as (_ & _ & [(_ & _ & X)|(b1 & -> & Hb1)]); [lia|].
      rewrite slots_raw in Hb1 by (rewrite fmap_length; lia). cbn [mkv vfinish vstart].
      erewrite (ctor_app _ _ _ (Some dflt) _ _ Hb1) by (rewrite !fmap_length; reflexivity). cbn [obind].
      set (m2 := upd m1 b1 _ _).
      assert (Hf2 : fresh m2) by (eapply upd_fresh; eassumption).
      assert (Hfr2 : fr [b1] m1 [b1] m2) by (eapply fr_upd; eassumption).
      assert (Hb2 : blocks m2 !! b1 = Some ((Live <$> take i (Some <$> l)) ++ (Live <$> drop i (Some <$> l)) ++ Live (Some dflt) :: replicate (cap1 - S (length (Some <$> l))) Raw)).
      { unfold m2. rewrite upd_blocks. rewrite app_assoc, <- fmap_app, take_drop. reflexivity. }
      destruct (shift_up_ok smk b1 _ _ _ _ _ (Z.of_nat (length l)) Hb2 Hf2) as (m3 & E3 & Hb3 & Hfr3).
      { rewrite fmap_length, take_length, drop_length, fmap_length. lia. }
      replace (Z.to_nat (Z.of_nat (length l) - Z.of_nat i)) with (length (drop i (Some <$> l))) by (rewrite drop_length, fmap_length; lia).
      rewrite E3. cbn [obind read_arg].
      destruct Hrep as (Hfit & Hle & [(_ & X & _)|(b & Ev & Hb)]); [destruct l; [discriminate Hj|discriminate X]|].
      subst v. cbn [mkv vstart padd] in Hq. injection Hq as <-. rewrite own_mkv in *.
      rewrite load_dead; [reflexivity|]. eapply old_dead; [exact Hf|eapply fr_trans; [exact Hfr|eapply fr_trans; [exact Hfr2|exact Hfr3]]|].
      intros Hin. destruct (Hnew _ Hin) as [Y|Y]; [lia|]. subst b. rewrite (Hf _ (le_n _)) in Hb. discriminate.
Qed.
End facts.
