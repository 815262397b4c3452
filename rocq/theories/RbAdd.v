(** Insertion into a tree held by the heap. *)
From stdpp Require Import gmap list sorting.
From Coq Require Import ZArith Lia ZifyBool ZifyNat ZifyN.
From Verif Require Import Base RbModel RbPure RbHeap RbInsert RbErase RbUnlink RbOps RbSearch.
Local Open Scope outcome_scope.

Section add.
Context {A : Type} (lt : A -> A -> bool).
Notation tr := (tr A).
Notation ctx := (list (fr A)).
Notation heap := (heap A).
Implicit Types (s : heap) (t : tr) (k : ctx).
Notation here H F s := (At H F s s).
Notation srt := (StronglySorted (le2 lt)).

(** 923-935: the hole where [v] belongs *)
Fixpoint descend (v : A) t k : ctx :=
  match t with
  | E => k
  | T c l x a r => if lt v a then descend v l (FL c x a r :: k) else descend v r (FR c l x a :: k)
  end.
Definition side k : bool := match k with FR _ _ _ _ :: _ => false | _ => true end.
Definition insert (x : loc) (v : A) t : tr := paint Black (fixup (T Red E x v E) (descend v t [])).

Lemma plug_descend v t k : plug E (descend v t k) = plug t k.
Proof.
  revert k. induction t as [|c l IHl x a r IHr]; intros k; [done|]. cbn [descend].
  destruct (lt v a); [rewrite IHl|rewrite IHr]; done.
Qed.
Lemma descend_split v t k : exists k', descend v t k = k' ++ k /\ before k' ++ after k' = elems t.
Proof.
  revert k. induction t as [|c l IHl x a r IHr]; intros k; [by exists []|]. cbn [descend]. destruct (lt v a).
  - destruct (IHl (FL c x a r :: k)) as (k' & E1 & E2). exists (k' ++ [FL c x a r]). rewrite E1, <- app_assoc. split; [done|].
    rewrite before_app, after_app. cbn [before after elems app]. rewrite app_nil_r, app_assoc, E2. done.
  - destruct (IHr (FR c l x a :: k)) as (k' & E1 & E2). exists (k' ++ [FR c l x a]). rewrite E1, <- app_assoc. split; [done|].
    rewrite before_app, after_app. cbn [before after elems app]. rewrite app_nil_r, <- !app_assoc, E2. done.
Qed.
Lemma elems_insert x v t : elems (insert x v t) = before (descend v t []) ++ (x, v) :: after (descend v t []).
Proof. unfold insert. rewrite elems_paint, elems_fixup. done. Qed.
Lemma descend_sorted (LT : swo lt) v t k : srt (elems t) ->
  Forall (fun p => lt v (snd p) = false) (before k) -> Forall (fun p => lt v (snd p) = true) (after k) ->
  Forall (fun p => lt v (snd p) = false) (before (descend v t k)) /\
  Forall (fun p => lt v (snd p) = true) (after (descend v t k)).
Proof.
  revert k. induction t as [|c l IHl x a r IHr]; intros k S HB HA; [done|]. cbn [descend elems] in *.
  pose proof S as S'. apply srt_app in S' as (Sl & Sr & SS). apply StronglySorted_inv in Sr as [Sr Sa].
  destruct (lt v a) eqn:Ev.
  - apply IHl; [done|done|]. cbn [after]. constructor; [done|]. apply Forall_app. split; [|done].
    apply (Forall_impl _ _ _ Sa). intros [y b] Hp. cbn [snd]. unfold le2 in Hp. cbn in Hp.
    destruct (swo_neg _ LT _ _ b Ev); congruence.
  - apply IHr; [done| |done]. cbn [before]. apply Forall_app. split; [done|]. apply Forall_app. split; [|by constructor].
    apply (Forall_impl _ _ _ SS). intros [y b] Hp. apply Forall_cons in Hp as [Hp _]. unfold le2 in Hp. cbn in *.
    destruct (lt v b) eqn:E; [|done]. destruct (swo_neg _ LT _ _ a E); congruence.
Qed.
(** where it goes in the order *)
Lemma elems_insert_sorted (LT : swo lt) x v t : srt (elems t) ->
  elems (insert x v t) = takew (fun p => negb (lt v (snd p))) (elems t) ++ (x, v) :: dropw (fun p => negb (lt v (snd p))) (elems t).
Proof.
  intros S. rewrite elems_insert. destruct (descend_split v t []) as (k' & E1 & E2). rewrite app_nil_r in E1. rewrite E1.
  destruct (descend_sorted LT v t [] S (List.Forall_nil _) (List.Forall_nil _)) as [HB HA]. rewrite E1 in HB, HA. rewrite <- E2.
  assert (Forall (fun p => negb (lt v (snd p)) = true) (before k')) as HB' by
    (apply (Forall_impl _ _ _ HB); intros p ->; done).
  rewrite takew_app_all, dropw_app_all by exact HB'.
  assert (takew (fun p => negb (lt v (snd p))) (after k') = [] /\ dropw (fun p => negb (lt v (snd p))) (after k') = after k') as [-> ->].
  { destruct HA as [|p l Hp _]; [done|]. cbn. by rewrite Hp. }
  by rewrite app_nil_r.
Qed.
Lemma srt_insert (LT : swo lt) x v t : srt (elems t) -> srt (elems (insert x v t)).
Proof.
  intros S. rewrite elems_insert. destruct (descend_split v t []) as (k' & E1 & E2). rewrite app_nil_r in E1.
  destruct (descend_sorted LT v t [] S (List.Forall_nil _) (List.Forall_nil _)) as [HB HA]. rewrite E1 in *.
  rewrite <- E2 in S. apply srt_app in S as (S1 & S2 & S3). apply srt_app. split; [done|]. split.
  - constructor; [done|]. apply (Forall_impl _ _ _ HA). intros [y b]. unfold le2. cbn. intros Hb.
    destruct (lt b v) eqn:E; [|done]. pose proof (swo_trans _ LT _ _ _ Hb E). rewrite (swo_irr _ LT) in *. done.
  - rewrite Forall_forall in HB, S3 |- *. intros p Hp. constructor; [exact (HB p Hp)|]. exact (S3 p Hp).
Qed.

Section h.
Context (H : loc).
Lemma pos_loop_ok v t : forall fuel k s p, rep s t p -> length (elems t) <= fuel ->
  pos_loop lt fuel v (pid H k) (side k) (id t) s = Ok (pid H (descend v t k), side (descend v t k)).
Proof.
  induction t as [|c l IHl x a r IHr]; intros fuel k s p R Hf; [by destruct fuel|].
  cbn [rep] in R. destruct R as (Hx & Rl & Rr). cbn [elems] in Hf. rewrite app_length in Hf. cbn [length] in Hf.
  destruct fuel as [|fuel]; [lia|]. cbn [id pos_loop]. rewrite (key_ok _ _ _ _ Hx eq_refl). cbn [obind descend].
  destruct (lt v a).
  - rewrite (left_ok _ _ _ Hx). cbn [obind lf]. apply (IHl fuel (FL c x a r :: k) s x Rl). lia.
  - rewrite (right_ok _ _ _ Hx). cbn [obind rt]. apply (IHr fuel (FR c l x a :: k) s x Rr). lia.
Qed.
Lemma pos_ok fuel s t v : hold s H t -> length (elems t) < fuel ->
  insert_multi_pos lt fuel H v s = Ok (pid H (descend v t []), side (descend v t [])).
Proof.
  intros Q Hf. unfold insert_multi_pos. rewrite (at_root _ _ _ _ _ _ (hold_at _ _ _ Q)). cbn [obind plug].
  apply (pos_loop_ok v t fuel [] s H); [|lia]. exact (at_rep _ _ _ _ _ _ _ _ (hold_at _ _ _ Q)).
Qed.

Lemma repc_hole s mn mx c x a r c' l k h h' :
  (repc H s mn mx (FL c x a r :: k) h -> (forall q, bit H q + ccnt (FL c x a r :: k) q <= 1) ->
   repc H (put x {| col := c; lf := h'; rt := id r; pa := Some (pid H k); vl := Some a |} s) mn mx (FL c x a r :: k) h') /\
  (repc H s mn mx (FR c' l x a :: k) h -> (forall q, bit H q + ccnt (FR c' l x a :: k) q <= 1) ->
   repc H (put x {| col := c'; lf := id l; rt := h'; pa := Some (pid H k); vl := Some a |} s) mn mx (FR c' l x a :: k) h').
Proof.
  split; cbn [repc ccnt]; intros (Hx & Hr & K) Hc; (split; [apply put_same|]; split).
  - apply (rep_frame s); [|done]. intros q Hq. apply put_ne, ne_of_bit. specialize (Hc q). lia.
  - apply (repc_frame H s); [|done]. intros q Hq. apply put_ne, ne_of_bit. specialize (Hc q). lia.
  - apply (rep_frame s); [|done]. intros q Hq. apply put_ne, ne_of_bit. specialize (Hc q). lia.
  - apply (repc_frame H s); [|done]. intros q Hq. apply put_ne, ne_of_bit. specialize (Hc q). lia.
Qed.
Lemma low_black_red t k : red (plug t k) = false -> low_black k.
Proof.
  revert t. induction k as [|f k IH]; intros t; [done|]. cbn [plug]. intros X. specialize (IH _ X). unfold low_black in *.
  destruct k as [|g k]; [|by rewrite last_cons_cons]. cbn in *. by destruct f as [[] ? ? ?|[] ? ? ?].
Qed.
Lemma first_mid d (l l' : list (loc * A)) : l <> [] -> first d (l ++ l') = first d l.
Proof. by destruct l. Qed.

(** 967-985 *)
Lemma insert_node_ok fuel s k x v :
  hold s H (plug E k) -> 
  foot H (plug E k) x = 0 -> cells s !! x = Some {| col := Red; lf := None; rt := None; pa := None; vl := Some v |} ->
  length (elems (plug E k)) < fuel ->
  exists s', insert_node_at fuel H (pid H k) x (side k) s = Ok s' /\
    hold s' H (paint Black (fixup (T Red E x v E) k)) /\ made s' = made s /\
    forall q, foot H (plug E k) q + bit x q = 0 -> cells s' !! q = cells s !! q.
Proof.
  intros Q Hx Cx Hf. pose proof (hold_focus _ _ _ _ Q) as P. pose proof (low_black_red _ _ (proj2 Q)) as LB.
  assert (length k < fuel) as Hk by (pose proof (length_ctx k (E : tr)); lia).
  assert (forall q, bit H q + bit x q + ccnt k q <= 1) as Hc.
  { intros q. pose proof (at_le _ _ _ _ _ _ q P) as X. cbn [cnt] in X. unfold foot in Hx. rewrite cnt_plug in Hx. cbn [cnt] in Hx.
    destruct (decide (x = q)) as [<-|Nq]; [rewrite bit_same; lia|rewrite (bit_ne x q) by done; lia]. }
  set (t' := plug (T Red E x v E) k).
  (* before the rebalancing *)
  assert (exists s', (s <~ set_pa x (Some (pid H k)) s ;
      if bool_decide (pid H k = H) then
          s <~ set_pa H (Some x) s ; s <~ set_lf H (Some x) s ; set_rt H (Some x) s
        else if side k then
          s <~ set_lf (pid H k) (Some x) s ;
          h <~ get H s ;
          if bool_decide (lf h = Some (pid H k)) then set_lf H (Some x) s else Ok s
        else
          s <~ set_rt (pid H k) (Some x) s ;
          h <~ get H s ;
          if bool_decide (rt h = Some (pid H k)) then set_rt H (Some x) s else Ok s) = Ok s' /\
      here H (foot H t') s' (least H t') (most H t') (T Red E x v E) k /\ made s' = made s /\
      forall q, foot H (plug E k) q + bit x q = 0 -> cells s' !! q = cells s !! q) as (s1 & E1 & P1 & M1 & O1).
  { rewrite (set_pa_ok _ _ _ _ Cx). cbn [obind col lf rt pa vl]. set (s1 := put x _ s).
    assert (cells s1 !! x = Some {| col := Red; lf := None; rt := None; pa := Some (pid H k); vl := Some v |}) as Cx1 by apply put_same.
    assert (forall q, bit x q = 0 -> cells s1 !! q = cells s !! q) as O1 by (intros q Hq; by apply put_ne, ne_of_bit).
    assert (repc H s1 (least H (plug E k)) (most H (plug E k)) k None) as K1.
    { apply (repc_frame H s); [|exact (at_repc _ _ _ _ _ _ _ _ P)]. intros q Hq. apply O1. specialize (Hc q). lia. }
    assert (forall s2 mn mx, cells s2 !! x = cells s1 !! x -> repc H s2 mn mx k (Some x) -> mn = least H t' -> mx = most H t' ->
      here H (foot H t') s2 (least H t') (most H t') (T Red E x v E) k) as Fin.
    { intros s2 mn mx X1 X2 -> ->. split; [| |intros q; unfold foot, t'; rewrite cnt_plug; lia| |done|done].
      - cbn [rep id]. by rewrite X1.
      - done.
      - intros q. unfold foot, t'. rewrite cnt_plug. cbn [cnt]. specialize (Hc q). lia. }
    assert (forall q, foot H (plug E k) q = bit H q + ccnt k q) as HF by (intros q; unfold foot; rewrite cnt_plug; cbn; lia).
    destruct k as [|f k].
    - cbn [pid]. rewrite bool_decide_eq_true_2 by done. cbn [repc] in K1. rewrite (set_pa_ok _ _ _ _ K1). cbn [obind col lf rt pa vl].
      rewrite (set_lf_ok H _ _ _ (put_same _ _ _)). cbn [obind col lf rt pa vl].
      rewrite (set_rt_ok H _ _ _ (put_same _ _ _)). cbn [obind col lf rt pa vl]. eexists. split; [reflexivity|].
      assert (H <> x) as NHx by (apply ne_of_bit; specialize (Hc x); rewrite (bit_same x) in Hc; lia).
      split; [|split; [done|]].
      + apply (Fin _ (Some x) (Some x)); [by rewrite !put_ne| |done|done]. cbn [repc]. apply put_same.
      + intros q Hq. rewrite HF in Hq. cbn [ccnt] in Hq. rewrite !put_ne by (apply ne_of_bit; lia). apply O1. lia.
    - cbn [pid]. rewrite bool_decide_eq_false_2; cycle 1.
      { intros X. specialize (Hc H). destruct f; cbn [floc ccnt] in *; subst; rewrite bit_same in Hc; lia. }
      assert (forall q, bit H q + ccnt (f :: k) q <= 1) as Hck by (intros q; specialize (Hc q); lia).
      destruct f as [c p a r|c l p a]; cbn [side floc].
      + pose proof (proj1 K1) as Cp. rewrite (set_lf_ok _ _ _ _ Cp). cbn [obind col lf rt pa vl].
        destruct (repc_hole s1 (least H (plug E (FL c p a r :: k))) (most H (plug E (FL c p a r :: k))) c p a r c E k None (Some x))
          as [K2 _]. specialize (K2 K1 Hck). set (s2 := put p _ s1) in *.
        pose proof (repc_top _ _ _ _ _ _ K2) as Ch. rewrite (get_ok _ _ _ Ch). cbn [obind lf].
        assert (p <> x) as Npx by (apply ne_of_bit; specialize (Hc x); cbn [ccnt] in Hc; rewrite (bit_same x) in Hc; lia).
        assert (H <> x) as NHx by (apply ne_of_bit; specialize (Hc x); rewrite (bit_same x) in Hc; lia).
        assert (most H (plug E (FL c p a r :: k)) = most H t') as EM.
        { unfold most, t'. rewrite !elems_plug. cbn [elems]. f_equal. cbn [after]. rewrite !final_app by done. done. }
        pose proof (least_here H _ _ _ _ _ _ _ _ (ul _ _ _ _ _ _ _ _ _ _ P)) as HL.
        change (plug (T c E p a r) k) with (plug (E : tr) (FL c p a r :: k)) in HL.
        case_bool_decide as Hd.
        * rewrite (set_lf_ok _ _ _ _ Ch). cbn [col lf rt pa vl]. eexists. split; [reflexivity|]. split; [|split; [done|]].
          -- apply HL in Hd as [HB _]. eapply Fin; [|exact (repc_head _ _ _ _ _ _ _ _ K2 Hck)| |exact EM].
             ++ unfold s2. rewrite !put_ne by done. done.
             ++ unfold least, t'. rewrite elems_plug. cbn [before]. by rewrite HB.
          -- intros q Hq. rewrite HF in Hq. cbn [ccnt] in Hq. unfold s2. rewrite !put_ne by (apply ne_of_bit; lia). apply O1. lia.
        * eexists. split; [reflexivity|]. split; [|split; [done|]].
          -- eapply Fin; [|exact K2| |exact EM].
             ++ unfold s2. rewrite !put_ne by done. done.
             ++ unfold least, t'. rewrite !elems_plug. cbn [before elems app]. f_equal.
                destruct (before k) as [|[? ?] ?] eqn:EB; [|done]. by destruct Hd; apply HL.
          -- intros q Hq. rewrite HF in Hq. cbn [ccnt] in Hq. unfold s2. rewrite !put_ne by (apply ne_of_bit; lia). apply O1. lia.
      + pose proof (proj1 K1) as Cp. rewrite (set_rt_ok _ _ _ _ Cp). cbn [obind col lf rt pa vl].
        destruct (repc_hole s1 (least H (plug E (FR c l p a :: k))) (most H (plug E (FR c l p a :: k))) c p a E c l k None (Some x))
          as [_ K2]. specialize (K2 K1 Hck). set (s2 := put p _ s1) in *.
        pose proof (repc_top _ _ _ _ _ _ K2) as Ch. rewrite (get_ok _ _ _ Ch). cbn [obind rt].
        assert (p <> x) as Npx by (apply ne_of_bit; specialize (Hc x); cbn [ccnt] in Hc; rewrite (bit_same x) in Hc; lia).
        assert (H <> x) as NHx by (apply ne_of_bit; specialize (Hc x); rewrite (bit_same x) in Hc; lia).
        assert (before (FR c l p a :: k) <> []) as HB.
        { cbn [before]. intros X. apply app_eq_nil in X as [_ X]. by apply app_eq_nil in X as [_ X]. }
        assert (least H (plug E (FR c l p a :: k)) = least H t') as EM.
        { unfold least, t'. rewrite !elems_plug. by rewrite !first_mid. }
        pose proof (most_here H _ _ _ _ _ _ _ _ (ur _ _ _ _ _ _ _ _ _ _ P)) as HL.
        change (plug (T c l p a E) k) with (plug (E : tr) (FR c l p a :: k)) in HL.
        case_bool_decide as Hd.
        * rewrite (set_rt_ok _ _ _ _ Ch). cbn [col lf rt pa vl]. eexists. split; [reflexivity|]. split; [|split; [done|]].
          -- apply HL in Hd as [HA _]. eapply Fin; [|exact (repc_head _ _ _ _ _ _ _ _ K2 Hck)|exact EM|].
             ++ unfold s2. rewrite !put_ne by done. done.
             ++ unfold most, t'. rewrite elems_plug. cbn [after elems app]. rewrite HA. by rewrite final_snoc.
          -- intros q Hq. rewrite HF in Hq. cbn [ccnt] in Hq. unfold s2. rewrite !put_ne by (apply ne_of_bit; lia). apply O1. lia.
        * eexists. split; [reflexivity|]. split; [|split; [done|]].
          -- eapply Fin; [|exact K2|exact EM|].
             ++ unfold s2. rewrite !put_ne by done. done.
             ++ unfold most, t'. rewrite !elems_plug. cbn [after elems app]. f_equal.
                destruct (decide (after k = [])) as [EA|EA]; [by destruct Hd; apply HL|].
                rewrite !(final_app _ _ (after k)) by done.
                rewrite (final_app _ _ ((x, v) :: after k)) by done. rewrite final_cons.
                destruct (exists_last EA) as (i & [w q] & ->). by rewrite !final_snoc.
          -- intros q Hq. rewrite HF in Hq. cbn [ccnt] in Hq. unfold s2. rewrite !put_ne by (apply ne_of_bit; lia). apply O1. lia. }
  unfold insert_node_at.
  destruct (set_pa x (Some (pid H k)) s) as [s2| |] eqn:E2; cbn [obind] in E1 |- *; try done. rewrite E1. cbn [obind].
  destruct (insert_rebalance_ok H _ _ k fuel s1 _ _ _ _ _ P1 LB Hk) as (s3 & E3 & P3).
  exists s3. split; [done|]. split; [|split].
  - split.
    + assert (elems (paint Black (fixup (T Red E x v E) k)) = elems t') as EE.
      { rewrite elems_paint, elems_fixup. unfold t'. by rewrite elems_plug. }
      destruct P3 as [P31 P32 P33 P34 P35 P36]. unfold least, most in *. rewrite EE. split; auto.
      * intros q. unfold foot. rewrite cnt_paint, cnt_fixup. cbn [cnt]. specialize (Hc q). lia.
    + destruct (fixup (T Red E x v E) k); done.
  - rewrite <- M1. exact (at_made _ _ _ _ _ _ _ _ P3).
  - intros q Hq. rewrite <- O1 by done. apply (at_out _ _ _ _ _ _ _ _ P3). unfold foot, t'. rewrite cnt_plug. cbn [cnt].
    unfold foot in Hq. rewrite cnt_plug in Hq. cbn [cnt] in Hq. lia.
Qed.
End h.
End add.
