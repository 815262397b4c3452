(** Vector operations against sequences. *)
From stdpp Require Import gmap list.
From Coq Require Import ZArith Lia ZifyBool ZifyNat.
From Verif Require Import Base ObjModel ObjSpec ObjProofs VectorModel VectorSpec.
Local Open Scope Z_scope.
Local Open Scope outcome_scope.

Definition mkv (b n cap : nat) : vec :=
  {| vstart := Ptr b 0; vfinish := Ptr b (Z.of_nat n); veos := Ptr b (Z.of_nat cap) |}.
Definition own (v : vec) : list nat := match vstart v with Null => [] | Ptr b _ => [b] end.
(** Capacity after asking for [n]. *)
Definition growcap (cap n : nat) : nat := if (n <=? cap)%nat then cap else Nat.max (2 * cap) n.

Section proofs.
Context {A : Type} (esz : Z) (dflt : A) (smk : bool) (Hesz : 1 <= esz).
Notation mem := (mem A).
Notation cell := (cell A).
Implicit Types (m : mem) (os : list (option A)).

Definition slots os (cap : nat) : list cell := (Live <$> os) ++ replicate (cap - length os) Raw.
Definition fits (cap : nat) : Prop := Z.of_nat cap * esz < 2 ^ 63.
Definition vrep (v : vec) os (cap : nat) m : Prop :=
  fits cap /\ (length os <= cap)%nat /\
  ((v = vec0 /\ os = [] /\ cap = 0%nat) \/
   exists b, v = mkv b (length os) cap /\ blocks m !! b = Some (slots os cap)).
Definition post (o : list nat) m (r : outcome (vec * mem)) os' cap' : Prop :=
  exists v' m', r = Ok (v', m') /\ vrep v' os' cap' m' /\ fr o m (own v') m'.

Lemma fits_lt cap : fits cap -> Z.of_nat cap < 2 ^ 63.
Proof. unfold fits. nia. Qed.
Lemma fits_le c d : (c <= d)%nat -> fits d -> fits c.
Proof. unfold fits. nia. Qed.

Lemma psub_small b i j : 0 <= i - j < 2 ^ 64 -> psub (Ptr b i) (Ptr b j) = Ok (i - j).
Proof. intros H. unfold psub. rewrite Nat.eqb_refl, Z.mod_small by exact H. reflexivity. Qed.

Lemma vsize_ok v os cap m : vrep v os cap m -> vsize v = Ok (Z.of_nat (length os)).
Proof.
  intros (Hfit & Hle & [(-> & -> & _)|(b & -> & _)]); [reflexivity|]. apply fits_lt in Hfit.
  unfold vsize. cbn [mkv vfinish vstart]. rewrite psub_small by lia. f_equal. lia.
Qed.
Lemma vcap_ok v os cap m : vrep v os cap m -> vcapacity v = Ok (Z.of_nat cap).
Proof.
  intros (Hfit & Hle & [(-> & _ & ->)|(b & -> & _)]); [reflexivity|]. apply fits_lt in Hfit.
  unfold vcapacity. cbn [mkv veos vstart]. rewrite psub_small by lia. f_equal. lia.
Qed.
Lemma own_mkv b n cap : own (mkv b n cap) = [b].
Proof. reflexivity. Qed.
Lemma vrep_own_some v os cap m b : vrep v os cap m -> In b (own v) -> exists cs, blocks m !! b = Some cs.
Proof. intros (_ & _ & [(-> & _)|(c & -> & H)]) Hi; [destruct Hi|]. destruct Hi as [<-|[]]. eauto. Qed.
(** An untouched vector stays as it is. *)
Lemma vrep_keep v os cap m o o' m' : fresh m -> fr o m o' m' -> (forall b, In b (own v) -> ~ In b o) ->
  vrep v os cap m -> vrep v os cap m'.
Proof.
  intros Hf Hfr Hd (Hfit & Hle & H). split; [exact Hfit|]. split; [exact Hle|].
  destruct H as [H|(b & -> & Hb)]; [left; exact H|right]. exists b. split; [reflexivity|].
  eapply fr_keep; [exact Hf|exact Hfr| |exact Hb]. apply Hd. left. reflexivity.
Qed.

Lemma slots_full os cap : length os = cap -> slots os cap = Live <$> os.
Proof. intros <-. unfold slots. rewrite Nat.sub_diag. apply app_nil_r. Qed.
Lemma slots_raw os cap : (length os < cap)%nat ->
  slots os cap = (Live <$> os) ++ Raw :: replicate (cap - S (length os)) Raw.
Proof.
  intros H. unfold slots. replace (cap - length os)%nat with (S (cap - S (length os))) by lia. reflexivity.
Qed.
Lemma slots_snoc os x cap : (length os < cap)%nat ->
  slots (os ++ [x]) cap = (Live <$> os) ++ Live x :: replicate (cap - S (length os)) Raw.
Proof.
  intros H. unfold slots. rewrite app_length, fmap_app, <- app_assoc. cbn [length].
  replace (cap - (length os + 1))%nat with (cap - S (length os))%nat by lia. reflexivity.
Qed.
Lemma len_live os : length (Live <$> os : list cell) = length os.
Proof. apply fmap_length. Qed.
Lemma replicate_raw n : forallb is_raw (replicate n (Raw : cell)) = true.
Proof. induction n; [reflexivity|exact IHn]. Qed.

Lemma vdestroy_ok v os cap m : vrep v os cap m -> fresh m -> exists m',
  vdestroy v m = Ok m' /\ fr (own v) m [] m' /\ count is_move (trace m') = count is_move (trace m).
Proof.
  intros Hr Hf. unfold vdestroy. rewrite (vsize_ok _ _ _ _ Hr), (vcap_ok _ _ _ _ Hr). cbn [obind].
  destruct Hr as (Hfit & Hle & [(-> & -> & ->)|(b & -> & Hb)]).
  - exists m. split; [reflexivity|]. split; [apply fr_refl; exact Hf|reflexivity].
  - assert (H : exists m1, (if Z.of_nat (length os) =? 0 then Ok m
      else destroy_range (S (Z.to_nat (Z.of_nat (length os)))) (vstart (mkv b (length os) cap)) (vfinish (mkv b (length os) cap)) m) = Ok m1 /\
      blocks m1 !! b = Some (replicate cap Raw) /\ fr [b] m [b] m1 /\ count is_move (trace m1) = count is_move (trace m)).
    { destruct (Z.eqb_spec (Z.of_nat (length os)) 0) as [Hz|Hz].
      - destruct os; [|cbn in Hz; lia]. exists m. split; [reflexivity|]. split; [rewrite Hb; unfold slots; cbn; rewrite Nat.sub_0_r; reflexivity|].
        split; [apply fr_refl; exact Hf|reflexivity].
      - cbn [mkv vstart vfinish]. rewrite Nat2Z.id.
        destruct (destroy_range_ok (S (length os)) m b [] os (replicate (cap - length os) Raw) 0 (Z.of_nat (length os)))
          as (m1 & E & Hb1 & Hfr & Hc); [lia|exact Hb|exact Hf|reflexivity|reflexivity|].
        exists m1. split; [exact E|]. split; [|auto]. rewrite Hb1. cbn [app].
        rewrite <- replicate_add. do 2 f_equal. lia. }
    destruct H as (m1 & -> & Hb1 & Hfr & Hc). cbn [obind]. rewrite own_mkv.
    destruct (Z.eqb_spec (Z.of_nat cap) 0) as [Hz|Hz].
    + exists m1. split; [reflexivity|]. split; [|exact Hc]. eapply fr_trans; [exact Hfr|].
      apply fr_drop_empty; [eapply fr_fresh; exact Hfr|]. rewrite Hb1. replace cap with 0%nat by lia. reflexivity.
    + cbn [mkv vstart free_buf]. rewrite Hb1. cbn [of_option obind]. rewrite replicate_raw. cbn.
      eexists. split; [reflexivity|]. split; [|cbn [trace]; rewrite count_cons; exact Hc].
      eapply fr_trans; [exact Hfr|]. apply fr_free. eapply fr_fresh; exact Hfr.
Qed.

Lemma vallocate_ok n m : 0 <= n -> n * esz < 2 ^ 63 -> fresh m -> exists v m',
  vallocate esz n m = Ok (v, m') /\ vrep v [] (Z.to_nat n) m' /\ fr [] m (own v) m' /\ v = mkv (nextb m) 0 (Z.to_nat n) /\
  count is_move (trace m') = count is_move (trace m).
Proof.
  intros Hn Hs Hf. unfold vallocate.
  destruct (alloc_buf esz n m) as [[p m1]| |] eqn:E; [|exfalso|exfalso].
  2,3: unfold alloc_buf in E; replace ((0 <=? n) && (n * esz <? 2 ^ 63)) with true in E by lia; discriminate.
  cbn [obind]. destruct (fr_alloc _ _ _ _ _ Hf E) as (Hfr & -> & Hb & Ht). cbn [padd obind].
  exists (mkv (nextb m) 0 (Z.to_nat n)), m1. unfold mkv at 1. rewrite !Z2Nat.id by lia.
  split; [reflexivity|]. split; [|split; [exact Hfr|split; [reflexivity|rewrite Ht, count_cons; reflexivity]]].
  split; [unfold fits; lia|]. split; [cbn; lia|]. right. exists (nextb m). split; [reflexivity|].
  rewrite Hb. unfold slots. cbn. rewrite Nat.sub_0_r. reflexivity.
Qed.

(** Construct at the end. *)
Lemma push_raw v os cap m x : vrep v os cap m -> fresh m -> (length os < cap)%nat -> exists m' f,
  ctor (vfinish v) x m = Ok m' /\ padd (vfinish v) 1 = Ok f /\ vrep (set_finish v f) (os ++ [x]) cap m' /\
  fr (own v) m (own v) m' /\ count is_move (trace m') = count is_move (trace m).
Proof.
  intros (Hfit & Hle & H) Hf Hlt. destruct H as [(_ & _ & ->)|(b & -> & Hb)]; [lia|].
  pose proof Hb as Hb0. rewrite (slots_raw _ _ Hlt) in Hb. cbn [mkv vfinish padd].
  erewrite (ctor_app _ _ _ x _ _ Hb) by (rewrite len_live; reflexivity).
  eexists _, _. split; [reflexivity|]. split; [reflexivity|]. split; [|split].
  - split; [exact Hfit|]. split; [rewrite app_length; cbn; lia|]. right. exists b. split.
    + unfold set_finish, mkv. cbn [vstart veos]. rewrite app_length. cbn [length]. do 2 f_equal. lia.
    + rewrite upd_blocks, slots_snoc by exact Hlt. reflexivity.
  - eapply fr_upd; eassumption.
  - cbn [upd trace]. rewrite count_cons. reflexivity.
Qed.
Lemma own_set_finish v f : own (set_finish v f) = own v.
Proof. reflexivity. Qed.

Lemma ensure_enough fuel n v os cap m : vrep v os cap m -> n <= Z.of_nat cap ->
  ensure_capacity esz (S fuel) n v m = Ok (v, m).
Proof.
  intros Hr Hn. cbn [ensure_capacity]. rewrite (vcap_ok _ _ _ _ Hr). cbn [obind].
  replace (n <=? Z.of_nat cap) with true by lia. reflexivity.
Qed.

Lemma vrep_upd_other v os cap m b cs e : (forall d, In d (own v) -> d <> b) -> vrep v os cap m -> vrep v os cap (upd m b cs e).
Proof.
  intros Hd (Hfit & Hle & H). split; [exact Hfit|]. split; [exact Hle|].
  destruct H as [H|(d & -> & Hb)]; [left; exact H|right]. exists d. split; [reflexivity|].
  cbn [upd blocks]. rewrite lookup_insert_ne; [exact Hb|]. apply not_eq_sym, Hd. left. reflexivity.
Qed.

Lemma move_elems_ok fuel f b0 b1 (Hne : b1 <> b0) : forall todo m v (pre post : list cell) done cap i j,
  (length todo < fuel)%nat -> blocks m !! b0 = Some (pre ++ (Live <$> todo) ++ post) -> fresh m ->
  vrep v done cap m -> own v = [b1] -> (length done + length todo <= cap)%nat ->
  i = Z.of_nat (length pre) -> j = Z.of_nat (length pre + length todo) -> exists v' m',
  move_elems fuel (push_back_with (ensure_capacity esz (S f))) (Ptr b0 i) (Ptr b0 j) v m = Ok (v', m') /\
  blocks m' !! b0 = Some (pre ++ (Live <$> replicate (length todo) None) ++ post) /\
  vrep v' (done ++ todo) cap m' /\ own v' = [b1] /\ fr [b0; b1] m [b0; b1] m' /\
  count is_move (trace m') = (length todo + count is_move (trace m))%nat.
Proof.
  induction fuel as [|fuel IH]; intros todo m v pre post0 done cap i j Hl Hb Hf Hr Ho Hcap Hi Hj; [lia|].
  cbn [move_elems]. destruct todo as [|x todo].
  - cbn [length] in *. replace (ptr_eqb (Ptr b0 i) (Ptr b0 j)) with true by (symmetry; apply ptr_eqb_eq; f_equal; lia).
    exists v, m. split; [reflexivity|]. split; [exact Hb|]. rewrite app_nil_r.
    split; [exact Hr|]. split; [exact Ho|]. split; [apply fr_refl; exact Hf|reflexivity].
  - cbn [length] in *.
    replace (ptr_eqb (Ptr b0 i) (Ptr b0 j)) with false
      by (symmetry; apply not_true_iff_false; rewrite ptr_eqb_eq; intros [= X]; lia).
    unfold push_back_with at 1. rewrite (vsize_ok _ _ _ _ Hr). cbn [obind].
    rewrite (ensure_enough _ _ _ _ _ _ Hr) by lia. cbn [obind read_arg].
    cbn [fmap list_fmap app] in Hb. rewrite (take_app _ _ _ _ _ _ Hb Hi). cbn [obind].
    set (m1 := upd m b0 _ _).
    assert (Hr1 : vrep v done cap m1).
    { apply vrep_upd_other; [|exact Hr]. rewrite Ho. intros d [<-|[]]. exact Hne. }
    assert (Hf1 : fresh m1) by (eapply upd_fresh; eassumption).
    destruct (push_raw _ _ _ _ x Hr1 Hf1) as (m2 & g & E1 & E2 & Hr2 & Hfr2 & Hc2); [lia|].
    rewrite E1. cbn [obind]. rewrite E2. cbn [obind padd]. rewrite Ho in Hfr2.
    destruct (IH todo m2 (set_finish v g) (pre ++ [Live None]) post0 (done ++ [x]) cap (i + 1) j)
      as (v' & m' & E & Hb' & Hr' & Ho' & Hfr' & Hc').
    + lia.
    + rewrite <- app_assoc. eapply fr_keep; [exact Hf1|exact Hfr2| |apply upd_blocks]. intros [X|[]]. congruence.
    + eapply fr_fresh; exact Hfr2.
    + exact Hr2.
    + exact Ho.
    + rewrite app_length. cbn [length]. lia.
    + rewrite app_length. cbn [length]. lia.
    + rewrite app_length. cbn [length]. lia.
    + exists v', m'. split; [exact E|]. split; [rewrite Hb', <- app_assoc; reflexivity|].
      split; [rewrite <- app_assoc in Hr'; exact Hr'|]. split; [exact Ho'|]. split.
      * eapply fr_trans; [|exact Hfr'].
        eapply fr_trans; [|apply (fr_frame [b0]); exact Hfr2].
        eapply (fr_equiv ([b1] ++ [b0]) _ ([b1] ++ [b0])); [| |apply fr_frame; eapply fr_upd; eassumption].
        -- intros b; cbn; tauto.
        -- intros b; cbn; tauto.
      * rewrite Hc', Hc2. unfold m1. cbn [upd trace]. rewrite count_cons. cbn. lia.
Qed.

Lemma ensure_ok f n v os cap m : vrep v os cap m -> fresh m -> 0 <= n -> fits (growcap cap (Z.to_nat n)) ->
  exists v' m', ensure_capacity esz (S (S f)) n v m = Ok (v', m') /\ vrep v' os (growcap cap (Z.to_nat n)) m' /\
  fr (own v) m (own v') m' /\
  count is_move (trace m') = ((if (Z.to_nat n <=? cap)%nat then 0 else length os) + count is_move (trace m))%nat /\
  (forall b, In b (own v') -> (Z.to_nat n <= cap)%nat \/ b = nextb m) /\ ((Z.to_nat n <= cap)%nat -> v' = v /\ m' = m).
Proof.
  intros Hr Hf Hn Hg. destruct (Z.leb_spec n (Z.of_nat cap)) as [Hle|Hgt].
  - rewrite (ensure_enough _ _ _ _ _ _ Hr Hle). exists v, m. unfold growcap.
    replace (Z.to_nat n <=? cap)%nat with true by lia.
    split; [reflexivity|]. split; [exact Hr|]. split; [apply fr_refl; exact Hf|]. split; [reflexivity|].
    split; [intros; left; lia|]. auto.
  - remember (S f) as f1 eqn:Ef1. cbn [ensure_capacity]. rewrite (vcap_ok _ _ _ _ Hr). cbn [obind vswap].
    replace (n <=? Z.of_nat cap) with false by lia.
    assert (Hfit : fits cap) by apply Hr. apply fits_lt in Hfit. rewrite (Z.mod_small (Z.of_nat cap * 2)) by lia.
    set (nc := if n <? Z.of_nat cap * 2 then Z.of_nat cap * 2 else n).
    assert (Hnc : Z.to_nat nc = growcap cap (Z.to_nat n) /\ 0 <= nc).
    { unfold nc, growcap. replace (Z.to_nat n <=? cap)%nat with false by lia. destruct (Z.ltb_spec n (Z.of_nat cap * 2)); lia. }
    destruct Hnc as [Hnc Hnc0]. rewrite <- Hnc in *.
    destruct (vallocate_ok nc m Hnc0) as (v1 & m1 & -> & Hr1 & Hfr1 & Hv1 & Hc1).
    { unfold fits in Hg. rewrite Z2Nat.id in Hg by lia. exact Hg. }
    { exact Hf. }
    cbn [obind]. rewrite (vsize_ok _ _ _ _ Hr). cbn [obind]. rewrite Nat2Z.id.
    assert (Hlen : (length os <= cap)%nat) by apply Hr.
    assert (Hbig : (cap <= Z.to_nat nc)%nat) by (unfold nc; destruct (Z.ltb_spec n (Z.of_nat cap * 2)); lia).
    assert (Hold : forall b, In b (own v) -> ~ In b (@nil nat)) by auto.
    pose proof (vrep_keep _ _ _ _ _ _ _ Hf Hfr1 Hold Hr) as Hrold.
    replace (Z.to_nat n <=? cap)%nat with false by lia.
    destruct Hr as (Hfit' & _ & [(-> & -> & Hc0)|(b & -> & Hb)]).
    + cbn [move_elems vstart vfinish vec0 ptr_eqb]. cbn [obind].
      change (vdestroy vec0 m1) with (@Ok mem m1). cbn [obind].
      exists v1, m1. split; [reflexivity|]. split; [exact Hr1|]. split; [exact Hfr1|]. split; [exact Hc1|].
      split; [|lia]. intros d Hd. right. rewrite Hv1 in Hd. destruct Hd as [<-|[]]. reflexivity.
    + assert (Hbf : b <> nextb m). { intros ->. rewrite (Hf _ (le_n _)) in Hb. discriminate. }
      assert (Hb1 : blocks m1 !! b = Some (slots os cap)).
      { eapply fr_keep; [exact Hf|exact Hfr1|intros []|exact Hb]. }
      cbn [mkv vstart vfinish]. subst f1.
      destruct (move_elems_ok (S (length os)) f b (nextb m) (not_eq_sym Hbf) os m1 v1 [] (replicate (cap - length os) Raw) [] (Z.to_nat nc) 0 (Z.of_nat (length os)))
        as (v2 & m2 & E & Hb2 & Hr2 & Ho2 & Hfr2 & Hc2).
      * lia.
      * exact Hb1.
      * eapply fr_fresh; exact Hfr1.
      * exact Hr1.
      * rewrite Hv1. reflexivity.
      * cbn. lia.
      * reflexivity.
      * reflexivity.
      * rewrite E. cbn [obind]. cbn [app] in Hr2, Hb2.
        assert (Hrold2 : vrep (mkv b (length os) cap) (replicate (length os) None) cap m2).
        { split; [exact Hfit'|]. rewrite replicate_length. split; [exact Hlen|]. right. exists b. split; [reflexivity|].
          rewrite Hb2. unfold slots. rewrite replicate_length. reflexivity. }
        destruct (vdestroy_ok _ _ _ _ Hrold2 (fr_fresh _ _ _ _ Hfr2)) as (m3 & E3 & Hfr3 & Hc3).
        change {| vstart := Ptr b 0; vfinish := Ptr b (Z.of_nat (length os)); veos := Ptr b (Z.of_nat cap) |} with (mkv b (length os) cap).
        rewrite E3. cbn [obind]. rewrite own_mkv in *.
        exists v2, m3. split; [reflexivity|]. split.
        { eapply vrep_keep; [eapply fr_fresh; exact Hfr2|exact Hfr3| |exact Hr2]. rewrite Ho2.
          intros d [<-|[]] [X|[]]. congruence. }
        split.
        { rewrite Ho2. rewrite Hv1 in Hfr1. rewrite own_mkv in Hfr1.
          eapply fr_trans; [apply (fr_frame [b]); exact Hfr1|]. cbn [app].
          eapply fr_trans; [exact Hfr2|].
          eapply (fr_equiv ([nextb m] ++ [b]) _ ([nextb m] ++ [])); [| |apply fr_frame; exact Hfr3].
          - intros d; cbn; tauto.
          - intros d; cbn; tauto. }
        split; [rewrite Hc3, Hc2, Hc1; reflexivity|]. split; [|lia].
        intros d Hd. right. rewrite Ho2 in Hd. destruct Hd as [<-|[]]. reflexivity.
Qed.

Lemma growcap_ge cap n : (n <= growcap cap n)%nat /\ (cap <= growcap cap n)%nat.
Proof. unfold growcap. destruct (Nat.leb_spec n cap); lia. Qed.

(** push_back with an argument that still reads as [x] after making room. *)
Lemma push_back_gen a x v os cap m : vrep v os cap m -> fresh m -> fits (growcap cap (S (length os))) ->
  (forall m', read_arg a m' = Ok (x, m')) \/ ((S (length os) <= cap)%nat /\ read_arg a m = Ok (x, m)) ->
  exists v' m', push_back esz a v m = Ok (v', m') /\ vrep v' (os ++ [x]) (growcap cap (S (length os))) m' /\
  fr (own v) m (own v') m' /\
  count is_move (trace m') = ((if (S (length os) <=? cap)%nat then 0 else length os) + count is_move (trace m))%nat.
Proof.
  intros Hr Hf Hg Ha. unfold push_back, push_back_with, ensure. rewrite (vsize_ok _ _ _ _ Hr). cbn [obind].
  assert (Hn : Z.to_nat (Z.of_nat (length os) + 1) = S (length os)) by lia.
  destruct (ensure_ok 0 (Z.of_nat (length os) + 1) v os cap m Hr Hf) as (v1 & m1 & -> & Hr1 & Hfr1 & Hc1 & _ & Hsame).
  { lia. } { rewrite Hn. exact Hg. }
  cbn [obind]. rewrite Hn in *.
  assert (Hread : read_arg a m1 = Ok (x, m1)).
  { destruct Ha as [Ha|[Hle Ha]]; [apply Ha|]. destruct (Hsame Hle) as [-> ->]. exact Ha. }
  rewrite Hread. cbn [obind]. destruct (growcap_ge cap (S (length os))) as [G1 G2].
  destruct (push_raw _ _ _ _ x Hr1 (fr_fresh _ _ _ _ Hfr1)) as (m2 & g & E1 & E2 & Hr2 & Hfr2 & Hc2); [lia|].
  rewrite E1. cbn [obind]. rewrite E2. cbn [obind]. eexists _, _. split; [reflexivity|]. split; [exact Hr2|].
  rewrite own_set_finish. split; [eapply fr_trans; eassumption|]. rewrite Hc2. exact Hc1.
Qed.
Lemma push_back_ok x v os cap m : vrep v os cap m -> fresh m -> fits (growcap cap (S (length os))) ->
  exists v' m', push_back esz (AVal x) v m = Ok (v', m') /\ vrep v' (os ++ [Some x]) (growcap cap (S (length os))) m' /\
  fr (own v) m (own v') m' /\
  count is_move (trace m') = ((if (S (length os) <=? cap)%nat then 0 else length os) + count is_move (trace m))%nat.
Proof. intros. apply push_back_gen; try assumption. left. reflexivity. Qed.

Lemma push_all_ok l : forall v os cap m, vrep v os cap m -> fresh m -> (length os + length l <= cap)%nat ->
  post (own v) m (push_all esz l v m) (os ++ (Some <$> l)) cap.
Proof.
  induction l as [|a l IH]; intros v os cap m Hr Hf Hle; cbn [push_all].
  - exists v, m. split; [reflexivity|]. cbn. rewrite app_nil_r. split; [exact Hr|]. apply fr_refl. exact Hf.
  - cbn [length] in Hle.
    assert (Hg : growcap cap (S (length os)) = cap) by (unfold growcap; replace (S (length os) <=? cap)%nat with true by lia; reflexivity).
    destruct (push_back_ok a v os cap m Hr Hf) as (v1 & m1 & E & Hr1 & Hfr1 & _); [rewrite Hg; apply Hr|].
    rewrite E. cbn [obind]. rewrite Hg in Hr1.
    destruct (IH v1 (os ++ [Some a]) cap m1 Hr1 (fr_fresh _ _ _ _ Hfr1)) as (v' & m' & E' & Hr' & Hfr').
    { rewrite app_length. cbn [length]. lia. }
    exists v', m'. split; [exact E'|]. rewrite <- app_assoc in Hr'. split; [exact Hr'|]. eapply fr_trans; eassumption.
Qed.
Lemma vinit_ok l m : fresh m -> fits (length l) -> post [] m (vinit esz l m) (Some <$> l) (length l).
Proof.
  intros Hf Hfit. unfold vinit.
  destruct (vallocate_ok (Z.of_nat (length l)) m) as (v & m1 & -> & Hr & Hfr & _); [lia|exact Hfit|exact Hf|].
  cbn [obind]. rewrite Nat2Z.id in Hr.
  destruct (push_all_ok l v [] (length l) m1 Hr (fr_fresh _ _ _ _ Hfr)) as (v' & m' & E & Hr' & Hfr'); [cbn; lia|].
  exists v', m'. split; [exact E|]. split; [exact Hr'|]. eapply fr_trans; eassumption.
Qed.

Lemma construct_n_ok a k : forall m b (pre post : list cell) i,
  blocks m !! b = Some (pre ++ replicate k Raw ++ post) -> fresh m -> i = Z.of_nat (length pre) -> exists m',
  construct_n k (Ptr b i) a m = Ok m' /\ blocks m' !! b = Some (pre ++ replicate k (Live (Some a)) ++ post) /\ fr [b] m [b] m'.
Proof.
  induction k as [|k IH]; intros m b pre post0 i Hb Hf Hi; cbn [construct_n].
  - exists m. split; [reflexivity|]. split; [exact Hb|]. apply fr_refl. exact Hf.
  - cbn [replicate app] in Hb. rewrite (ctor_app _ _ _ _ _ _ Hb Hi). cbn [obind padd].
    destruct (IH (upd m b (pre ++ Live (Some a) :: replicate k Raw ++ post0) (ECtor b i)) b (pre ++ [Live (Some a)]) post0 (i + 1)) as (m' & E & Hb' & Hfr').
    + rewrite upd_blocks, <- app_assoc. reflexivity.
    + eapply upd_fresh; eassumption.
    + rewrite app_length. cbn [length]. lia.
    + exists m'. split; [exact E|]. split; [rewrite Hb', <- app_assoc; reflexivity|].
      eapply fr_trans; [eapply fr_upd; eassumption|exact Hfr'].
Qed.
Lemma fmap_replicate_live k (x : option A) : replicate k (Live x) = Live <$> replicate k x.
Proof. symmetry. apply fmap_replicate. Qed.

Lemma vfill_ok n a m : 0 <= n -> fresh m -> fits (Z.to_nat n) -> post [] m (vfill esz n a m) (replicate (Z.to_nat n) (Some a)) (Z.to_nat n).
Proof.
  intros Hn Hf Hfit. unfold vfill.
  destruct (vallocate_ok n m) as (v & m1 & -> & Hr & Hfr & -> & _); [lia|unfold fits in Hfit; lia|exact Hf|].
  cbn [obind mkv vstart padd].
  destruct Hr as (_ & _ & [(X & _)|(b & Hv & Hb)]); [discriminate X|]. assert (b = nextb m) as -> by (injection Hv; auto).
  destruct (construct_n_ok a (Z.to_nat n) m1 (nextb m) [] [] 0) as (m2 & E & Hb2 & Hfr2).
  { rewrite Hb. unfold slots. cbn. rewrite Nat.sub_0_r, app_nil_r. reflexivity. }
  { eapply fr_fresh; exact Hfr. } { reflexivity. }
  rewrite E. cbn [obind]. eexists _, _. split; [reflexivity|]. split; [|rewrite own_set_finish; eapply fr_trans; eassumption].
  split; [exact Hfit|]. rewrite replicate_length. split; [lia|]. right. exists (nextb m). split.
  - unfold set_finish, mkv. cbn. do 2 f_equal. lia.
  - rewrite Hb2. cbn [app]. rewrite app_nil_r, fmap_replicate_live, slots_full by apply replicate_length. reflexivity.
Qed.

Lemma copy_elems_ok fuel b0 b1 (Hne : b1 <> b0) : forall todo m v (pre post : list cell) done cap i j,
  (length todo < fuel)%nat -> blocks m !! b0 = Some (pre ++ (Live <$> todo) ++ post) -> fresh m ->
  vrep v done cap m -> own v = [b1] -> (length done + length todo <= cap)%nat ->
  i = Z.of_nat (length pre) -> j = Z.of_nat (length pre + length todo) -> exists v' m',
  copy_elems fuel (Ptr b0 i) (Ptr b0 j) v m = Ok (v', m') /\
  vrep v' (done ++ todo) cap m' /\ own v' = [b1] /\ fr [b1] m [b1] m'.
Proof.
  induction fuel as [|fuel IH]; intros todo m v pre post0 done cap i j Hl Hb Hf Hr Ho Hcap Hi Hj; [lia|].
  cbn [copy_elems]. destruct todo as [|x todo].
  - cbn [length] in *. replace (ptr_eqb (Ptr b0 i) (Ptr b0 j)) with true by (symmetry; apply ptr_eqb_eq; f_equal; lia).
    exists v, m. split; [reflexivity|]. rewrite app_nil_r.
    split; [exact Hr|]. split; [exact Ho|]. apply fr_refl; exact Hf.
  - cbn [length] in *.
    replace (ptr_eqb (Ptr b0 i) (Ptr b0 j)) with false
      by (symmetry; apply not_true_iff_false; rewrite ptr_eqb_eq; intros [= X]; lia).
    cbn [fmap list_fmap app] in Hb. rewrite (load_app _ _ _ _ _ _ Hb Hi). cbn [obind].
    destruct (push_raw _ _ _ _ x Hr Hf) as (m2 & g & E1 & E2 & Hr2 & Hfr2 & Hc2); [lia|].
    rewrite E1. cbn [obind]. rewrite E2. cbn [obind padd]. rewrite Ho in Hfr2.
    destruct (IH todo m2 (set_finish v g) (pre ++ [Live x]) post0 (done ++ [x]) cap (i + 1) j)
      as (v' & m' & E & Hr' & Ho' & Hfr').
    + lia.
    + rewrite <- app_assoc. eapply fr_keep; [exact Hf|exact Hfr2| |exact Hb]. intros [X|[]]. congruence.
    + eapply fr_fresh; exact Hfr2.
    + exact Hr2.
    + exact Ho.
    + rewrite app_length. cbn [length]. lia.
    + rewrite app_length. cbn [length]. lia.
    + rewrite app_length. cbn [length]. lia.
    + exists v', m'. split; [exact E|].
      split; [rewrite <- app_assoc in Hr'; exact Hr'|]. split; [exact Ho'|]. eapply fr_trans; eassumption.
Qed.
Lemma vcopy_ok v os cap m : vrep v os cap m -> fresh m -> post [] m (vcopy esz v m) os (length os).
Proof.
  intros Hr Hf. unfold vcopy. rewrite (vsize_ok _ _ _ _ Hr). cbn [obind].
  assert (Hfit : fits (length os)) by (destruct Hr as (X & Y & _); eapply fits_le; eassumption).
  destruct (Z.eqb_spec (Z.of_nat (length os)) 0) as [Hz|Hz].
  - exists vec0, m. split; [reflexivity|]. split; [|apply fr_refl; exact Hf].
    destruct os; [|cbn in Hz; lia]. split; [exact Hfit|]. split; [cbn; lia|]. left. auto.
  - destruct (vallocate_ok (Z.of_nat (length os)) m) as (w & m1 & -> & Hw & Hfr & Ew & _); [lia|exact Hfit|exact Hf|].
    cbn [obind]. rewrite Nat2Z.id in *.
    destruct Hr as (_ & Hle & [(-> & -> & _)|(b & -> & Hb)]); [cbn in Hz; lia|].
    assert (Hbf : b <> nextb m). { intros ->. rewrite (Hf _ (le_n _)) in Hb. discriminate. }
    cbn [mkv vstart vfinish].
    destruct (copy_elems_ok (S (length os)) b (nextb m) (not_eq_sym Hbf) os m1 w [] (replicate (cap - length os) Raw) [] (length os) 0 (Z.of_nat (length os)))
      as (v2 & m2 & E & Hr2 & Ho2 & Hfr2).
    + lia.
    + eapply fr_keep; [exact Hf|exact Hfr|intros []|exact Hb].
    + eapply fr_fresh; exact Hfr.
    + exact Hw.
    + rewrite Ew. reflexivity.
    + cbn. lia.
    + reflexivity.
    + reflexivity.
    + exists v2, m2. split; [exact E|]. split; [exact Hr2|]. rewrite Ho2. rewrite Ew, own_mkv in Hfr.
      eapply fr_trans; eassumption.
Qed.

(** Shifting up by one. *)
Lemma shift_up_ok b : forall todo m (pre : list cell) x post i,
  blocks m !! b = Some (pre ++ (Live <$> todo) ++ Live x :: post) -> fresh m ->
  i = Z.of_nat (length pre + length todo) -> exists m',
  shift_up smk (length todo) (Ptr b 0) i m = Ok m' /\
  blocks m' !! b = Some (pre ++ Live (match todo with [] => x | _ => None end) :: (Live <$> todo) ++ post) /\ fr [b] m [b] m'.
Proof.
  induction todo as [|a todo IH] using rev_ind; intros m pre x post0 i Hb Hf Hi.
  - exists m. split; [reflexivity|]. split; [exact Hb|]. apply fr_refl. exact Hf.
  - rewrite app_length, Nat.add_1_r in *. cbn [length] in *. cbn [shift_up padd obind].
    rewrite fmap_app, <- app_assoc in Hb. cbn [fmap list_fmap app] in Hb. rewrite app_assoc in Hb.
    destruct (move_up_app smk m b (i - 1) a x (pre ++ (Live <$> todo)) post0 Hb) as (m1 & E & Hb1 & Hfr1).
    { rewrite app_length, len_live. lia. }
    replace (0 + i) with (i - 1 + 1) by lia. replace (0 + (i - 1)) with (i - 1) by lia. rewrite E. cbn [obind].
    rewrite <- app_assoc in Hb1.
    destruct (IH m1 pre None (Live a :: post0) (i - 1)) as (m' & E' & Hb' & Hfr').
    + exact Hb1.
    + eapply fr_fresh, Hfr1. exact Hf.
    + lia.
    + exists m'. split; [exact E'|]. split; [|eapply fr_trans; [apply Hfr1; exact Hf|exact Hfr']].
      rewrite Hb', fmap_app, <- app_assoc. destruct todo; reflexivity.
Qed.

Lemma psub_idx v os cap m i p : vrep v os cap m -> padd (vstart v) i = Ok p -> 0 <= i <= Z.of_nat cap -> psub p (vstart v) = Ok i.
Proof.
  intros (Hfit & _ & [(-> & _ & ->)|(b & -> & _)]) Hp Hi; cbn [vec0 mkv vstart padd] in *.
  - replace i with 0 in * by lia. injection Hp as <-. reflexivity.
  - injection Hp as <-. apply fits_lt in Hfit. rewrite psub_small by lia. f_equal. lia.
Qed.
Lemma padd_ok v os cap m i : vrep v os cap m -> 0 <= i <= Z.of_nat cap -> exists p, padd (vstart v) i = Ok p.
Proof.
  intros (_ & _ & [(-> & _ & ->)|(b & -> & _)]) Hi; cbn [vec0 mkv vstart padd]; [|eauto].
  replace i with 0 by lia. eauto.
Qed.

Lemma insert_slots os (i : nat) x cap b v' m : (i <= length os < cap)%nat -> fits cap ->
  blocks m !! b = Some ((Live <$> take i os) ++ Live x :: (Live <$> drop i os) ++ replicate (cap - S (length os)) Raw) ->
  v' = mkv b (S (length os)) cap ->
  vrep v' (take i os ++ x :: drop i os) cap m.
Proof.
  intros Hi Hfit Hb ->. assert (Hlen : length (take i os ++ x :: drop i os) = S (length os)).
  { rewrite app_length. cbn [length]. rewrite take_length, drop_length. lia. }
  split; [exact Hfit|]. rewrite Hlen. split; [lia|]. right. exists b. split; [reflexivity|].
  rewrite Hb. unfold slots. rewrite Hlen, fmap_app, fmap_cons, <- app_assoc. reflexivity.
Qed.

(** insert with an argument that reads as [x] once the hole at [i] is open. *)
Lemma insert_gen i p a x v os cap m : vrep v os cap m -> fresh m -> 0 <= i <= Z.of_nat (length os) ->
  fits (growcap cap (S (length os))) -> padd (vstart v) i = Ok p ->
  (forall m', read_arg a m' = Ok (x, m')) \/
  ((S (length os) <= cap)%nat /\ forall b m' h, own v = [b] ->
     blocks m' !! b = Some ((Live <$> take (Z.to_nat i) os) ++ Live h :: (Live <$> drop (Z.to_nat i) os) ++ replicate (cap - S (length os)) Raw) ->
     (h = Some dflt /\ i = Z.of_nat (length os) \/ h = None /\ i < Z.of_nat (length os)) -> read_arg a m' = Ok (x, m')) ->
  post (own v) m (insert_at esz dflt smk p a v m) (take (Z.to_nat i) os ++ x :: drop (Z.to_nat i) os) (growcap cap (S (length os))).
Proof.
  intros Hr Hf Hi Hg Hp Ha. unfold insert_at, ensure.
  assert (Hlec : (length os <= cap)%nat) by apply Hr.
  rewrite (psub_idx _ _ _ _ _ _ Hr Hp) by lia. cbn [obind]. rewrite (vsize_ok _ _ _ _ Hr). cbn [obind].
  assert (Hn : Z.to_nat (Z.of_nat (length os) + 1) = S (length os)) by lia.
  destruct (ensure_ok 0 (Z.of_nat (length os) + 1) v os cap m Hr Hf) as (v1 & m1 & -> & Hr1 & Hfr1 & Hc1 & _ & Hsame).
  { lia. } { rewrite Hn. exact Hg. }
  cbn [obind]. rewrite Hn in *. destruct (growcap_ge cap (S (length os))) as [G1 G2].
  set (cap1 := growcap cap (S (length os))) in *.
  assert (Hf1 := fr_fresh _ _ _ _ Hfr1).
  rewrite (vsize_ok _ _ _ _ Hr1).
  destruct Hr1 as (_ & _ & [(_ & _ & X)|(b & Ev1 & Hb)]); [lia|].
  rewrite slots_raw in Hb by lia. subst v1. cbn [mkv vfinish vstart].
  erewrite (ctor_app _ _ _ (Some dflt) _ _ Hb) by (rewrite len_live; reflexivity). cbn [obind].
  set (m2 := upd m1 b _ _).
  assert (Hf2 : fresh m2) by (eapply upd_fresh; eassumption).
  assert (Hfr2 : fr [b] m1 [b] m2) by (eapply fr_upd; eassumption).
  assert (Hb2 : blocks m2 !! b = Some ((Live <$> take (Z.to_nat i) os) ++ (Live <$> drop (Z.to_nat i) os) ++ Live (Some dflt) :: replicate (cap1 - S (length os)) Raw)).
  { unfold m2. rewrite upd_blocks. rewrite app_assoc, <- fmap_app, take_drop. reflexivity. }
  destruct (shift_up_ok b _ _ _ _ _ (Z.of_nat (length os)) Hb2 Hf2) as (m3 & E3 & Hb3 & Hfr3).
  { rewrite len_live, take_length, drop_length. lia. }
  replace (Z.to_nat (Z.of_nat (length os) - i)) with (length (drop (Z.to_nat i) os)) by (rewrite drop_length; lia).
  rewrite E3. cbn [obind].
  set (h := match drop (Z.to_nat i) os with [] => Some dflt | _ => None end) in *.
  assert (Hh : h = Some dflt /\ i = Z.of_nat (length os) \/ h = None /\ i < Z.of_nat (length os)).
  { unfold h. destruct (drop (Z.to_nat i) os) eqn:E; [left|right]; (split; [reflexivity|]);
    apply (f_equal length) in E; rewrite drop_length in E; cbn in E; lia. }
  assert (Hread : read_arg a m3 = Ok (x, m3)).
  { destruct Ha as [Ha|[Hle Ha]]; [apply Ha|]. destruct (Hsame Hle) as [<- ->].
    assert (Hcap : cap1 = cap) by (unfold cap1, growcap; replace (S (length os) <=? cap)%nat with true by lia; reflexivity).
    rewrite Hcap in Hb3. eapply Ha; [reflexivity|exact Hb3|exact Hh]. }
  rewrite Hread. cbn [obind padd].
  erewrite (assign_app _ _ _ _ x _ _ Hb3) by (rewrite len_live, take_length; lia). cbn [obind].
  eexists _, _. split; [reflexivity|]. split.
  - eapply (insert_slots os (Z.to_nat i) x cap1 b); [lia|exact Hg|apply upd_blocks|].
    unfold set_finish, mkv. cbn. do 2 f_equal. lia.
  - rewrite own_set_finish. rewrite own_mkv in *. cbn [own mkv vstart].
    eapply fr_trans; [exact Hfr1|]. eapply fr_trans; [exact Hfr2|]. eapply fr_trans; [exact Hfr3|].
    eapply fr_upd; [eapply fr_fresh; exact Hfr3|exact Hb3].
Qed.
Lemma insert_ok i p x v os cap m : vrep v os cap m -> fresh m -> 0 <= i <= Z.of_nat (length os) ->
  fits (growcap cap (S (length os))) -> padd (vstart v) i = Ok p ->
  post (own v) m (insert_at esz dflt smk p (AVal x) v m) (take (Z.to_nat i) os ++ Some x :: drop (Z.to_nat i) os) (growcap cap (S (length os))).
Proof. intros. apply insert_gen; try assumption. left. reflexivity. Qed.

Lemma push_front_insert a v os cap m : vrep v os cap m -> fresh m -> fits (growcap cap (S (length os))) ->
  push_front esz dflt smk a v m = insert_at esz dflt smk (vstart v) a v m.
Proof.
  intros Hr Hf Hg. unfold push_front, insert_at. rewrite (psub_idx _ _ _ _ 0 _ Hr); [| |lia].
  2: { destruct Hr as (_ & _ & [(-> & _)|(b & -> & _)]); reflexivity. }
  cbn [obind]. rewrite (vsize_ok _ _ _ _ Hr). cbn [obind].
  destruct (ensure_ok 0 (Z.of_nat (length os) + 1) v os cap m Hr Hf) as (v1 & m1 & E & Hr1 & _).
  { lia. } { replace (Z.to_nat (Z.of_nat (length os) + 1)) with (S (length os)) by lia. exact Hg. }
  unfold ensure. rewrite E. cbn [obind]. rewrite (vsize_ok _ _ _ _ Hr1). destruct (ctor _ _ _); cbn [obind]; try reflexivity.
  rewrite Z.sub_0_r.
  assert (Hp : padd (vstart v1) 0 = Ok (vstart v1)).
  { destruct Hr1 as (_ & _ & [(-> & _)|(b & -> & _)]); reflexivity. }
  rewrite Hp. reflexivity.
Qed.
Lemma push_front_ok x v os cap m : vrep v os cap m -> fresh m -> fits (growcap cap (S (length os))) ->
  post (own v) m (push_front esz dflt smk (AVal x) v m) (Some x :: os) (growcap cap (S (length os))).
Proof.
  intros Hr Hf Hg. rewrite (push_front_insert _ _ _ _ _ Hr Hf Hg).
  apply (insert_ok 0); try assumption; [lia|].
  destruct Hr as (_ & _ & [(-> & _)|(b & -> & _)]); reflexivity.
Qed.

Lemma emplace_ok i p x v os cap m : vrep v os cap m -> fresh m -> 0 <= i <= Z.of_nat (length os) ->
  fits (growcap cap (S (length os))) -> padd (vstart v) i = Ok p ->
  post (own v) m (emplace_at esz dflt smk p (AVal x) v m) (take (Z.to_nat i) os ++ Some x :: drop (Z.to_nat i) os) (growcap cap (S (length os))).
Proof.
  intros Hr Hf Hi Hg Hp. unfold emplace_at, ensure.
  assert (Hlec : (length os <= cap)%nat) by apply Hr.
  rewrite (psub_idx _ _ _ _ _ _ Hr Hp) by lia. cbn [obind]. rewrite (vsize_ok _ _ _ _ Hr). cbn [obind].
  assert (Hn : Z.to_nat (Z.of_nat (length os) + 1) = S (length os)) by lia.
  destruct (ensure_ok 0 (Z.of_nat (length os) + 1) v os cap m Hr Hf) as (v1 & m1 & -> & Hr1 & Hfr1 & Hc1 & _ & _).
  { lia. } { rewrite Hn. exact Hg. }
  cbn [obind]. rewrite Hn in *. destruct (growcap_ge cap (S (length os))) as [G1 G2].
  set (cap1 := growcap cap (S (length os))) in *.
  assert (Hf1 := fr_fresh _ _ _ _ Hfr1).
  rewrite (vsize_ok _ _ _ _ Hr1).
  destruct Hr1 as (_ & _ & [(_ & _ & X)|(b & Ev1 & Hb)]); [lia|].
  rewrite slots_raw in Hb by lia. subst v1. cbn [mkv vfinish vstart].
  erewrite (ctor_app _ _ _ (Some dflt) _ _ Hb) by (rewrite len_live; reflexivity). cbn [obind].
  set (m2 := upd m1 b _ _).
  assert (Hf2 : fresh m2) by (eapply upd_fresh; eassumption).
  assert (Hfr2 : fr [b] m1 [b] m2) by (eapply fr_upd; eassumption).
  assert (Hb2 : blocks m2 !! b = Some ((Live <$> take (Z.to_nat i) os) ++ (Live <$> drop (Z.to_nat i) os) ++ Live (Some dflt) :: replicate (cap1 - S (length os)) Raw)).
  { unfold m2. rewrite upd_blocks. rewrite app_assoc, <- fmap_app, take_drop. reflexivity. }
  destruct (shift_up_ok b _ _ _ _ _ (Z.of_nat (length os)) Hb2 Hf2) as (m3 & E3 & Hb3 & Hfr3).
  { rewrite len_live, take_length, drop_length. lia. }
  replace (Z.to_nat (Z.of_nat (length os) - i)) with (length (drop (Z.to_nat i) os)) by (rewrite drop_length; lia).
  rewrite E3. cbn [obind padd].
  erewrite (dtor_app _ _ _ _ _ _ Hb3) by (rewrite len_live, take_length; lia). cbn [obind read_arg].
  set (m4 := upd m3 b _ _).
  erewrite (ctor_app m4 b _ (Some x)) by (first [apply upd_blocks | rewrite len_live, take_length; lia]). cbn [obind].
  eexists _, _. split; [reflexivity|]. split.
  - eapply (insert_slots os (Z.to_nat i) (Some x) cap1 b); [lia|exact Hg|apply upd_blocks|].
    unfold set_finish, mkv. cbn. do 2 f_equal. lia.
  - rewrite own_set_finish. rewrite own_mkv in *. cbn [own mkv vstart].
    eapply fr_trans; [exact Hfr1|]. eapply fr_trans; [exact Hfr2|]. eapply fr_trans; [exact Hfr3|].
    eapply fr_trans; [eapply fr_upd; [eapply fr_fresh; exact Hfr3|exact Hb3]|].
    eapply fr_upd; [eapply upd_fresh; [eapply fr_fresh; exact Hfr3|exact Hb3]|apply upd_blocks].
Qed.

(** Shifting down by one over a slot that may be overwritten. *)
Lemma shift_down_ok b fuel : forall todo m (pre : list cell) x post i j,
  (length todo < fuel)%nat -> blocks m !! b = Some (pre ++ Live x :: (Live <$> todo) ++ post) -> fresh m ->
  i = Z.of_nat (length pre) -> j = Z.of_nat (length pre + length todo) -> exists m',
  shift_down smk fuel (Ptr b 0) i j m = Ok m' /\
  blocks m' !! b = Some (pre ++ (Live <$> todo) ++ Live (match todo with [] => x | _ => None end) :: post) /\ fr [b] m [b] m'.
Proof.
  induction fuel as [|fuel IH]; intros todo m pre x post0 i j Hl Hb Hf Hi Hj; [lia|]. cbn [shift_down].
  destruct todo as [|a todo]; cbn [length] in *.
  - replace (i <? j) with false by lia. exists m. split; [reflexivity|]. split; [exact Hb|]. apply fr_refl. exact Hf.
  - replace (i <? j) with true by lia. cbn [padd obind]. cbn [fmap list_fmap app] in Hb.
    destruct (move_down_app smk m b i (i + 1) x a pre [] ((Live <$> todo) ++ post0) Hb Hi) as (m1 & E & Hb1 & Hfr1).
    { cbn [length]. lia. }
    replace (0 + i) with i by lia. replace (0 + (i + 1)) with (i + 1) by lia. rewrite E. cbn [obind]. cbn [app] in Hb1.
    destruct (IH todo m1 (pre ++ [Live a]) None post0 (i + 1) j) as (m' & E' & Hb' & Hfr').
    + lia.
    + rewrite Hb1, <- app_assoc. reflexivity.
    + eapply fr_fresh, Hfr1. exact Hf.
    + rewrite app_length. cbn. lia.
    + rewrite app_length. cbn. lia.
    + exists m'. split; [exact E'|]. split; [|eapply fr_trans; [apply Hfr1; exact Hf|exact Hfr']].
      rewrite Hb', <- app_assoc. cbn [fmap list_fmap app]. destruct todo; reflexivity.
Qed.

Lemma erase_ok i p v os cap m : vrep v os cap m -> fresh m -> 0 <= i < Z.of_nat (length os) -> padd (vstart v) i = Ok p ->
  post (own v) m (erase_at smk p v m) (take (Z.to_nat i) os ++ drop (S (Z.to_nat i)) os) cap.
Proof.
  intros Hr Hf Hi Hp. unfold erase_at.
  assert (Hlec : (length os <= cap)%nat) by apply Hr. assert (Hfit : fits cap) by apply Hr. pose proof (fits_lt _ Hfit) as Hlt.
  rewrite (psub_idx _ _ _ _ _ _ Hr Hp) by lia. cbn [obind].
  rewrite (vsize_ok _ _ _ _ Hr), (vcap_ok _ _ _ _ Hr). cbn [obind].
  rewrite Z.mod_small by lia. rewrite Nat2Z.id.
  destruct Hr as (_ & _ & [(-> & -> & _)|(b & -> & Hb)]); [cbn in Hi; lia|].
  cbn [mkv vstart vfinish padd obind].
  destruct (lookup_lt_is_Some_2 os (Z.to_nat i)) as [y Hy]; [lia|].
  destruct (shift_down_ok b (S cap) (drop (S (Z.to_nat i)) os) m (Live <$> take (Z.to_nat i) os) y (replicate (cap - length os) Raw) i (Z.of_nat (length os) - 1))
    as (m1 & E & Hb1 & Hfr1).
  - rewrite drop_length. lia.
  - rewrite Hb. unfold slots. rewrite <- (take_drop_middle os (Z.to_nat i) y Hy) at 1.
    rewrite fmap_app, fmap_cons, <- app_assoc. reflexivity.
  - exact Hf.
  - rewrite len_live, take_length. lia.
  - rewrite len_live, take_length, drop_length. lia.
  - rewrite E. cbn [obind]. rewrite app_assoc in Hb1.
    erewrite (dtor_app _ _ _ _ _ _ Hb1) by (rewrite app_length, !len_live, take_length, drop_length; lia).
    cbn [obind]. eexists _, _. split; [reflexivity|].
    assert (Hlen : length (take (Z.to_nat i) os ++ drop (S (Z.to_nat i)) os) = (length os - 1)%nat)
      by (rewrite app_length, take_length, drop_length; lia).
    split.
    + split; [exact Hfit|]. rewrite Hlen. split; [lia|]. right. exists b. split.
      * unfold set_finish, mkv. cbn. do 2 f_equal. lia.
      * rewrite upd_blocks. unfold slots. rewrite Hlen, fmap_app.
        replace (cap - (length os - 1))%nat with (S (cap - length os)) by lia. reflexivity.
    + rewrite own_set_finish, own_mkv. eapply fr_trans; [exact Hfr1|]. eapply fr_upd; [eapply fr_fresh; exact Hfr1|exact Hb1].
Qed.

Lemma shift_range_ok b : forall todo m (pre : list cell) gap post i j,
  blocks m !! b = Some (pre ++ (Live <$> gap) ++ (Live <$> todo) ++ post) -> fresh m ->
  i = Z.of_nat (length pre) -> j = Z.of_nat (length pre + length gap) -> (gap <> [] \/ smk = true \/ todo = []) -> exists m' gap',
  shift_range smk (length todo) (Ptr b 0) i j m = Ok m' /\ length gap' = length gap /\
  blocks m' !! b = Some (pre ++ (Live <$> todo) ++ (Live <$> gap') ++ post) /\ fr [b] m [b] m'.
Proof.
  induction todo as [|a todo IH]; intros m pre gap post0 i j Hb Hf Hi Hj Hs.
  - exists m, gap. split; [reflexivity|]. split; [reflexivity|]. split; [exact Hb|]. apply fr_refl. exact Hf.
  - cbn [length shift_range padd obind]. rewrite !Z.add_0_l. destruct gap as [|g gap].
    + cbn [length] in Hj. assert (j = i) as -> by lia. cbn [fmap list_fmap app] in Hb.
      destruct (move_self_app smk m b i a pre _ Hb Hi) as (m1 & E & Hb1 & Hfr1). rewrite E. cbn [obind].
      assert (Hsmk : smk = true) by (destruct Hs as [X|[X|X]]; [congruence|exact X|discriminate]).
      rewrite Hsmk in Hb1 at 1.
      destruct (IH m1 (pre ++ [Live a]) [] post0 (i + 1) (i + 1)) as (m' & gap' & E' & Hl' & Hb' & Hfr').
      * rewrite Hb1, <- app_assoc. reflexivity.
      * eapply fr_fresh, Hfr1. exact Hf.
      * rewrite app_length. cbn. lia.
      * rewrite app_length. cbn. lia.
      * auto.
      * exists m', gap'. split; [exact E'|]. split; [exact Hl'|]. split; [rewrite Hb', <- app_assoc; reflexivity|].
        eapply fr_trans; [apply Hfr1; exact Hf|exact Hfr'].
    + cbn [fmap list_fmap app length] in Hb, Hj.
      destruct (move_down_app smk m b i j g a pre (Live <$> gap) ((Live <$> todo) ++ post0) Hb Hi) as (m1 & E & Hb1 & Hfr1).
      { rewrite len_live. exact Hj. }
      rewrite E. cbn [obind].
      destruct (IH m1 (pre ++ [Live a]) (gap ++ [None]) post0 (i + 1) (j + 1)) as (m' & gap' & E' & Hl' & Hb' & Hfr').
      * rewrite Hb1, fmap_app, <- !app_assoc. reflexivity.
      * eapply fr_fresh, Hfr1. exact Hf.
      * rewrite app_length. cbn. lia.
      * rewrite !app_length. cbn. lia.
      * left. destruct gap; discriminate.
      * exists m', gap'. split; [exact E'|]. split; [rewrite Hl', app_length; cbn; lia|].
        split; [rewrite Hb', <- app_assoc; reflexivity|]. eapply fr_trans; [apply Hfr1; exact Hf|exact Hfr'].
Qed.
Lemma destroy_n_ok b : forall todo m (pre post : list cell) i,
  blocks m !! b = Some (pre ++ (Live <$> todo) ++ post) -> fresh m -> i = Z.of_nat (length pre) -> exists m',
  destroy_n (length todo) (Ptr b i) m = Ok m' /\ blocks m' !! b = Some (pre ++ replicate (length todo) Raw ++ post) /\ fr [b] m [b] m'.
Proof.
  induction todo as [|a todo IH]; intros m pre post0 i Hb Hf Hi; cbn [length destroy_n].
  - exists m. split; [reflexivity|]. split; [exact Hb|]. apply fr_refl. exact Hf.
  - cbn [fmap list_fmap app] in Hb. rewrite (dtor_app _ _ _ _ _ _ Hb Hi). cbn [obind padd].
    destruct (IH (upd m b (pre ++ Raw :: (Live <$> todo) ++ post0) (EDtor b i)) (pre ++ [Raw]) post0 (i + 1)) as (m' & E & Hb' & Hfr').
    + rewrite upd_blocks, <- app_assoc. reflexivity.
    + eapply upd_fresh; eassumption.
    + rewrite app_length. cbn. lia.
    + exists m'. split; [exact E|]. split; [rewrite Hb', <- app_assoc; reflexivity|].
      eapply fr_trans; [eapply fr_upd; eassumption|exact Hfr'].
Qed.

Lemma erase_range_ok i j p q v os cap m : vrep v os cap m -> fresh m -> 0 <= i <= j -> j <= Z.of_nat (length os) ->
  (smk = true \/ i < j \/ j = Z.of_nat (length os)) -> padd (vstart v) i = Ok p -> padd (vstart v) j = Ok q ->
  post (own v) m (erase_range smk p q v m) (take (Z.to_nat i) os ++ drop (Z.to_nat j) os) cap.
Proof.
  intros Hr Hf Hi Hj Hs Hp Hq. unfold erase_range.
  assert (Hlec : (length os <= cap)%nat) by apply Hr. assert (Hfit : fits cap) by apply Hr. pose proof (fits_lt _ Hfit) as Hlt.
  rewrite (psub_idx _ _ _ _ _ _ Hr Hp), (psub_idx _ _ _ _ _ _ Hr Hq) by lia. cbn [obind].
  rewrite (vsize_ok _ _ _ _ Hr).
  destruct Hr as (_ & _ & [(-> & -> & ->)|(b & -> & Hb)]).
  - cbn in Hj. replace j with 0 in * by lia. replace i with 0 in * by lia. cbn in Hq. injection Hq as <-.
    rewrite take_nil, drop_nil. cbn. eexists _, _. split; [reflexivity|]. split; [|apply fr_refl; exact Hf].
    split; [exact Hfit|]. split; [cbn; lia|]. left. auto.
  - cbn [mkv vstart vfinish padd obind] in *. injection Hp as <-. injection Hq as <-.
    rewrite psub_small by lia. cbn [obind].
    set (gap := drop (Z.to_nat i) (take (Z.to_nat j) os)).
    assert (Hgap : length gap = (Z.to_nat j - Z.to_nat i)%nat) by (unfold gap; rewrite drop_length, take_length; lia).
    assert (Hsplit : os = take (Z.to_nat i) os ++ gap ++ drop (Z.to_nat j) os).
    { rewrite <- (take_drop (Z.to_nat i) os) at 1. f_equal. unfold gap.
      rewrite <- (take_drop (Z.to_nat j) os) at 1. rewrite drop_app_le by (rewrite take_length; lia). reflexivity. }
    destruct (shift_range_ok b (drop (Z.to_nat j) os) m (Live <$> take (Z.to_nat i) os) gap (replicate (cap - length os) Raw) i j)
      as (m1 & gap' & E & Hl' & Hb1 & Hfr1).
    + rewrite Hb. unfold slots. rewrite Hsplit at 1. rewrite !fmap_app, <- !app_assoc. reflexivity.
    + exact Hf.
    + rewrite len_live, take_length. lia.
    + rewrite len_live, take_length, Hgap. lia.
    + destruct Hs as [Hs|[Hs|Hs]]; [auto| |].
      * left. intros X. rewrite X in Hgap. cbn in Hgap. lia.
      * right; right. apply drop_ge. lia.
    + replace (Z.to_nat (Z.of_nat (length os) - (0 + j))) with (length (drop (Z.to_nat j) os)) by (rewrite drop_length; lia).
      rewrite E. cbn [obind]. rewrite app_assoc in Hb1.
      replace (Z.to_nat (Z.of_nat (length os) - (i + (Z.of_nat (length os) - (0 + j))))) with (length gap') by lia.
      destruct (destroy_n_ok b gap' m1 _ _ (0 + (i + (Z.of_nat (length os) - (0 + j)))) Hb1 (fr_fresh _ _ _ _ Hfr1)) as (m2 & E2 & Hb2 & Hfr2).
      { rewrite app_length, !len_live, take_length, drop_length. lia. }
      rewrite E2. cbn [obind]. eexists _, _. split; [reflexivity|].
      assert (Hlen : length (take (Z.to_nat i) os ++ drop (Z.to_nat j) os) = (length os - length gap)%nat)
        by (rewrite app_length, take_length, drop_length; lia).
      split.
      * split; [exact Hfit|]. rewrite Hlen. split; [lia|]. right. exists b. split.
        -- unfold set_finish, mkv. cbn [vstart veos]. do 2 f_equal. lia.
        -- rewrite Hb2. unfold slots. rewrite Hlen, fmap_app. rewrite Hl', <- replicate_add. do 3 f_equal. lia.
      * rewrite own_set_finish, own_mkv. eapply fr_trans; eassumption.
Qed.

Lemma pop_back_ok v os x cap m : vrep v (os ++ [x]) cap m -> fresh m -> post (own v) m (pop_back smk v m) os cap.
Proof.
  intros Hr Hf. unfold pop_back. assert (Hlen : length (os ++ [x]) = S (length os)) by (rewrite app_length; cbn; lia).
  assert (Hp : padd (vfinish v) (-1) = padd (vstart v) (Z.of_nat (length os))).
  { destruct Hr as (_ & _ & [(_ & X & _)|(b & -> & _)]); [destruct os; discriminate|].
    cbn [mkv vstart vfinish padd]. rewrite Hlen. do 2 f_equal. lia. }
  rewrite Hp. destruct (padd_ok _ _ _ _ (Z.of_nat (length os)) Hr) as (p & Ep).
  { destruct Hr as (_ & X & _). rewrite Hlen in X. lia. }
  rewrite Ep. cbn [obind].
  pose proof (erase_ok (Z.of_nat (length os)) p v (os ++ [x]) cap m Hr Hf) as H. rewrite Nat2Z.id in H.
  rewrite stdpp.list.take_app, drop_ge, app_nil_r in H by (rewrite Hlen; lia). apply H; [rewrite Hlen; lia|exact Ep].
Qed.
Lemma pop_front_ok v os x cap m : vrep v (x :: os) cap m -> fresh m -> post (own v) m (pop_front smk v m) os cap.
Proof.
  intros Hr Hf. unfold pop_front. pose proof (erase_ok 0 (vstart v) v (x :: os) cap m Hr Hf) as H. cbn in H.
  rewrite drop_0 in H. apply H; [cbn; lia|].
  destruct Hr as (_ & _ & [(-> & _)|(b & -> & _)]); reflexivity.
Qed.

Lemma destroy_back_ok b : forall todo m (pre post : list cell) i,
  blocks m !! b = Some (pre ++ (Live <$> todo) ++ post) -> fresh m -> i = Z.of_nat (length pre + length todo) -> exists m',
  destroy_back (length todo) (Ptr b i) m = Ok m' /\ blocks m' !! b = Some (pre ++ replicate (length todo) Raw ++ post) /\ fr [b] m [b] m'.
Proof.
  induction todo as [|a todo IH] using rev_ind; intros m pre post0 i Hb Hf Hi.
  - exists m. split; [reflexivity|]. split; [exact Hb|]. apply fr_refl. exact Hf.
  - rewrite app_length, Nat.add_1_r in *. cbn [length destroy_back padd obind] in *.
    rewrite fmap_app, <- app_assoc in Hb. cbn [fmap list_fmap app] in Hb. rewrite app_assoc in Hb.
    erewrite (dtor_app _ _ _ _ _ _ Hb) by (rewrite app_length, len_live; lia). cbn [obind].
    set (m1 := upd m b _ _).
    destruct (IH m1 pre (Raw :: post0) (i + -1)) as (m' & E & Hb' & Hfr').
    + unfold m1. rewrite upd_blocks, <- app_assoc. reflexivity.
    + eapply upd_fresh; eassumption.
    + lia.
    + exists m'. split; [exact E|]. split; [|eapply fr_trans; [eapply fr_upd; eassumption|exact Hfr']].
      rewrite Hb'. rewrite replicate_S_end, <- app_assoc. reflexivity.
Qed.

Definition opad (n : Z) os : list (option A) := take (Z.to_nat n) os ++ replicate (Z.to_nat n - length os) (Some dflt).
Lemma resize_ok n v os cap m : vrep v os cap m -> fresh m -> 0 <= n -> fits (growcap cap (Z.to_nat n)) ->
  exists cap', post (own v) m (resize esz dflt n v m) (opad n os) cap' /\
    (cap' = cap \/ cap' = growcap cap (Z.to_nat n)).
Proof.
  intros Hr Hf Hn Hg. unfold resize. rewrite (vsize_ok _ _ _ _ Hr). cbn [obind].
  assert (Hlec : (length os <= cap)%nat) by apply Hr.
  destruct (Z.ltb_spec (Z.of_nat (length os)) n) as [Hlt|Hge]; [|destruct (Z.ltb_spec n (Z.of_nat (length os))) as [Hlt|Hge']].
  - unfold ensure. destruct (ensure_ok 0 n v os cap m Hr Hf Hn Hg) as (v1 & m1 & -> & Hr1 & Hfr1 & _). cbn [obind].
    rewrite (vsize_ok _ _ _ _ Hr1). cbn [obind]. destruct (growcap_ge cap (Z.to_nat n)) as [G1 G2].
    set (cap1 := growcap cap (Z.to_nat n)) in *. exists cap1. split; [|right; reflexivity].
    set (k := (Z.to_nat n - length os)%nat). replace (Z.to_nat (n - Z.of_nat (length os))) with k by lia.
    destruct Hr1 as (_ & _ & [(_ & _ & X)|(b & -> & Hb)]); [lia|]. cbn [mkv vfinish padd].
    destruct (construct_n_ok dflt k m1 b (Live <$> os) (replicate (cap1 - Z.to_nat n) Raw) (Z.of_nat (length os))) as (m2 & E & Hb2 & Hfr2).
    { rewrite Hb. unfold slots. rewrite <- replicate_add. do 3 f_equal. lia. }
    { eapply fr_fresh; exact Hfr1. } { rewrite len_live. reflexivity. }
    rewrite E. cbn [obind]. eexists _, _. split; [reflexivity|].
    assert (Ho : opad n os = os ++ replicate k (Some dflt)) by (unfold opad; rewrite take_ge by lia; reflexivity).
    assert (Hlen : length (opad n os) = Z.to_nat n) by (rewrite Ho, app_length, replicate_length; lia).
    split.
    + split; [exact Hg|]. rewrite Hlen. split; [lia|]. right. exists b. split.
      * unfold set_finish, mkv. cbn. do 2 f_equal. lia.
      * rewrite Hb2. unfold slots. rewrite Hlen, Ho, fmap_app, <- app_assoc, fmap_replicate_live. reflexivity.
    + rewrite own_set_finish. rewrite own_mkv in *. eapply fr_trans; eassumption.
  - exists cap. split; [|left; reflexivity].
    destruct Hr as (Hfit & _ & [(-> & -> & _)|(b & -> & Hb)]); [cbn in Hlt; lia|]. cbn [mkv vfinish padd].
    destruct (destroy_back_ok b (drop (Z.to_nat n) os) m (Live <$> take (Z.to_nat n) os) (replicate (cap - length os) Raw) (Z.of_nat (length os)))
      as (m1 & E & Hb1 & Hfr1).
    { rewrite Hb. unfold slots. rewrite <- (take_drop (Z.to_nat n) os) at 1. rewrite fmap_app, <- app_assoc. reflexivity. }
    { exact Hf. } { rewrite len_live, take_length, drop_length. lia. }
    replace (Z.to_nat (Z.of_nat (length os) - n)) with (length (drop (Z.to_nat n) os)) by (rewrite drop_length; lia).
    rewrite E. cbn [obind]. eexists _, _. split; [reflexivity|].
    assert (Ho : opad n os = take (Z.to_nat n) os).
    { unfold opad. replace (Z.to_nat n - length os)%nat with 0%nat by lia. apply app_nil_r. }
    rewrite Ho. assert (Hlen : length (take (Z.to_nat n) os) = Z.to_nat n) by (rewrite take_length; lia).
    split; [|rewrite own_set_finish; exact Hfr1].
    split; [exact Hfit|]. rewrite Hlen. split; [lia|]. right. exists b. split.
    + unfold set_finish, mkv. cbn. do 2 f_equal. lia.
    + rewrite Hb1. unfold slots. rewrite Hlen, <- replicate_add, drop_length. do 3 f_equal. lia.
  - exists cap. split; [|left; reflexivity]. exists v, m. split; [reflexivity|]. split; [|apply fr_refl; exact Hf].
    unfold opad. rewrite take_ge by lia. replace (Z.to_nat n - length os)%nat with 0%nat by lia. cbn. rewrite app_nil_r. exact Hr.
Qed.

Lemma clear_ok v os cap m : vrep v os cap m -> fresh m -> post (own v) m (vclear v m) [] cap.
Proof.
  intros Hr Hf. unfold vclear. rewrite (vsize_ok _ _ _ _ Hr). cbn [obind]. rewrite Nat2Z.id.
  destruct Hr as (Hfit & Hle & [(-> & -> & ->)|(b & -> & Hb)]).
  - cbn. eexists _, _. split; [reflexivity|]. split; [|apply fr_refl; exact Hf].
    split; [exact Hfit|]. split; [cbn; lia|]. left. auto.
  - cbn [mkv vstart vfinish].
    destruct (destroy_range_ok (S (length os)) m b [] os (replicate (cap - length os) Raw) 0 (Z.of_nat (length os)))
      as (m1 & E & Hb1 & Hfr & Hc); [lia|exact Hb|exact Hf|reflexivity|reflexivity|].
    rewrite E. cbn [obind]. eexists _, _. split; [reflexivity|]. split; [|rewrite own_set_finish; exact Hfr].
    split; [exact Hfit|]. split; [cbn; lia|]. right. exists b. split; [reflexivity|].
    rewrite Hb1. unfold slots. cbn [app fmap list_fmap length]. rewrite <- replicate_add, Nat.sub_0_r. do 2 f_equal. lia.
Qed.

Lemma set_ok i x v os cap m : vrep v os cap m -> fresh m -> 0 <= i < Z.of_nat (length os) -> exists m',
  vset i (AVal x) v m = Ok m' /\ vrep v (take (Z.to_nat i) os ++ Some x :: drop (S (Z.to_nat i)) os) cap m' /\ fr (own v) m (own v) m'.
Proof.
  intros (Hfit & Hle & H) Hf Hi. destruct H as [(_ & -> & _)|(b & -> & Hb)]; [cbn in Hi; lia|].
  unfold vset. cbn [mkv vstart padd obind read_arg].
  destruct (lookup_lt_is_Some_2 os (Z.to_nat i)) as [y Hy]; [lia|].
  assert (Hb1 : blocks m !! b = Some ((Live <$> take (Z.to_nat i) os) ++ Live y :: (Live <$> drop (S (Z.to_nat i)) os) ++ replicate (cap - length os) Raw)).
  { rewrite Hb. unfold slots. rewrite <- (take_drop_middle os (Z.to_nat i) y Hy) at 1.
    rewrite fmap_app, fmap_cons, <- app_assoc. reflexivity. }
  erewrite (assign_app _ _ _ _ (Some x) _ _ Hb1) by (rewrite len_live, take_length; lia).
  assert (Hlen : length (take (Z.to_nat i) os ++ Some x :: drop (S (Z.to_nat i)) os) = length os).
  { rewrite app_length. cbn [length]. rewrite take_length, drop_length. lia. }
  eexists. split; [reflexivity|]. split; [|eapply fr_upd; eassumption].
  split; [exact Hfit|]. rewrite Hlen. split; [exact Hle|]. right. exists b. split; [reflexivity|].
  rewrite upd_blocks. unfold slots. rewrite Hlen, fmap_app, fmap_cons, <- app_assoc. reflexivity.
Qed.

(** Copy, then give up the old contents. *)
Lemma copy_assign_ok v os cap w os' cap' m : vrep v os cap m -> vrep w os' cap' m -> fresh m ->
  post (own v) m (copy_assign esz v w m) os' (length os').
Proof.
  intros Hv Hw Hf. unfold copy_assign.
  destruct (vcopy_ok _ _ _ _ Hw Hf) as (t & m1 & E & Ht & Hfr). rewrite E. cbn [obind vswap].
  assert (Hf1 := fr_fresh _ _ _ _ Hfr).
  assert (Hnew : forall b, In b (own t) -> ~ In b (own v)).
  { intros b Hb Hb'. destruct (vrep_own_some _ _ _ _ _ Hv Hb') as (cs & X).
    destruct Hfr as (_ & _ & H3 & _). assert (b < nextb m)%nat.
    { destruct (Nat.lt_ge_cases b (nextb m)) as [Y|Y]; [exact Y|]. rewrite (Hf _ Y) in X. discriminate. }
    exact (H3 _ Hb H). }
  assert (Hv1 : vrep v os cap m1) by (eapply vrep_keep; [exact Hf|exact Hfr|auto|exact Hv]).
  destruct (vdestroy_ok _ _ _ _ Hv1 Hf1) as (m2 & E2 & Hfr2 & _). rewrite E2. cbn [obind].
  exists t, m2. split; [reflexivity|]. split; [eapply vrep_keep; [exact Hf1|exact Hfr2|exact Hnew|exact Ht]|].
  pose proof (fr_frame (own v) _ _ _ _ Hfr) as X. rewrite app_nil_r in X. eapply fr_trans; [exact X|].
  pose proof (fr_frame (own t) _ _ _ _ Hfr2) as Y. rewrite app_nil_r in Y.
  eapply fr_equiv; [| |exact Y].
  - intros b. rewrite !in_app_iff. tauto.
  - intros b. tauto.
Qed.
End proofs.
