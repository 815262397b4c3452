(** emplace, erase and clear on a tree held by the heap. *)
From stdpp Require Import gmap list sorting.
From Coq Require Import ZArith Lia ZifyBool ZifyNat ZifyN.
From Verif Require Import Base RbModel RbPure RbHeap RbInsert RbErase RbUnlink RbOps RbSearch RbAdd.
Local Open Scope outcome_scope.

Section del.
Context {A : Type} (lt : A -> A -> bool).
Notation tr := (tr A).
Notation ctx := (list (fr A)).
Notation heap := (heap A).
Implicit Types (s : heap) (t : tr) (k : ctx).
Notation here H F s := (At H F s s).
Notation srt := (StronglySorted (le2 lt)).

(** nothing lives at an address not yet given out *)
Definition wf s : Prop := forall q, made s <= q -> cells s !! q = None.

Lemma rep_live s t p q : rep s t p -> 0 < cnt t q -> is_Some (cells s !! q).
Proof.
  revert p. induction t as [|c l IHl x a r IHr]; intros p R Hq; cbn [cnt] in Hq; [lia|].
  cbn [rep] in R. destruct R as (Hx & Rl & Rr).
  destruct (decide (0 < cnt l q)); [by eapply IHl|]. destruct (decide (0 < cnt r q)); [by eapply IHr|].
  assert (x = q) as <- by (apply bit_pos; lia). eauto.
Qed.
Lemma hold_live s H t q : hold s H t -> 0 < foot H t q -> is_Some (cells s !! q).
Proof.
  intros Q Hq. unfold foot in Hq. pose proof (hold_at _ _ _ Q) as P. destruct (decide (0 < cnt t q)).
  - eapply (rep_live s t _ q); [|done]. exact (at_rep _ _ _ _ _ _ _ _ P).
  - assert (H = q) as <- by (apply bit_pos; lia). rewrite (at_head _ _ _ _ _ _ P). eauto.
Qed.
Lemma wf_fresh s H t q : wf s -> hold s H t -> made s <= q -> foot H t q = 0.
Proof.
  intros W Q Hq. destruct (decide (foot H t q = 0)) as [|N]; [done|].
  destruct (hold_live s H t q Q) as [n Hn]; [lia|]. by rewrite W in Hn.
Qed.

Section h.
Context (H : loc).

Lemma create_ok s t v : hold s H t -> wf s ->
  let x := made s in
  let s1 := {| cells := <[x := {| col := Red; lf := None; rt := None; pa := None; vl := Some v |}]> (cells s); made := S x |} in
  create_node v s = (x, s1) /\ hold s1 H t /\ wf s1 /\ foot H t x = 0 /\
  cells s1 !! x = Some {| col := Red; lf := None; rt := None; pa := None; vl := Some v |} /\
  forall q, q <> x -> cells s1 !! q = cells s !! q.
Proof.
  intros Q W x s1. pose proof (wf_fresh s H t x W Q (le_n _)) as Hx. split; [done|].
  assert (forall q, q <> x -> cells s1 !! q = cells s !! q) as O1 by (intros q Hq; apply lookup_insert_ne; done).
  split; [|split; [|split; [done|split; [apply lookup_insert|done]]]].
  - apply (hold_frame s); [|done]. intros q Hq. apply O1. intros ->. lia.
  - intros q Hq. cbn in Hq. rewrite O1 by lia. apply W. lia.
Qed.
Lemma insert_step s t v fuel : hold s H t -> wf s -> length (elems t) < fuel ->
  let s1 := snd (create_node v s) in
  exists s', insert_node_at fuel H (pid H (descend lt v t [])) (made s) (side (descend lt v t [])) s1 = Ok s' /\
    hold s' H (insert lt (made s) v t) /\ made s' = S (made s) /\ wf s' /\
    forall q, foot H t q = 0 -> q <> made s -> cells s' !! q = cells s !! q.
Proof.
  intros Q W Hf s1. destruct (create_ok s t v Q W) as (E1 & Q1 & W1 & F1 & C1 & O1).
  assert (plug E (descend lt v t []) = t) as Ep by apply plug_descend.
  destruct (insert_node_ok lt H fuel s1 (descend lt v t []) (made s) v) as (s' & E2 & Q2 & M2 & O2); rewrite ?Ep; try done.
  rewrite Ep in O2. exists s'. split; [done|]. split; [done|]. split; [done|].
  assert (forall q, foot H t q = 0 -> q <> made s -> cells s' !! q = cells s !! q) as O.
  { intros q Hq Nq. rewrite O2 by (rewrite (bit_ne (made s) q) by done; lia). by apply O1. }
  split; [|done]. intros q Hq. rewrite M2 in Hq. cbn in Hq. rewrite O; [apply W; lia| |lia].
  apply (wf_fresh s); [done|done|lia].
Qed.

(** 714-719 *)
Lemma emplace_multi_ok s t v fuel n : hold s H t -> wf s -> length (elems t) < fuel ->
  exists s', emplace_multi lt fuel {| hd := H; ct := n |} v s = Ok (made s, {| hd := H; ct := n + 1 |}, s') /\
    hold s' H (insert lt (made s) v t) /\ made s' = S (made s) /\ wf s' /\
    forall q, foot H t q = 0 -> q <> made s -> cells s' !! q = cells s !! q.
Proof.
  intros Q W Hf. destruct (create_ok s t v Q W) as (E1 & Q1 & W1 & F1 & C1 & O1).
  destruct (insert_step s t v fuel Q W Hf) as (s' & E2 & R). rewrite E1 in E2. cbn [snd] in E2.
  unfold emplace_multi. rewrite E1. rewrite (key_ok _ _ _ _ C1 eq_refl). cbn [obind hd].
  rewrite (pos_ok lt H fuel _ t v Q1 Hf). cbn [obind]. rewrite E2. cbn [obind hd ct]. eauto.
Qed.

(** 947-961: is there no element like [v]? *)
Definition absent (v : A) (l : list (loc * A)) : bool :=
  match last l with None => true | Some (_, a) => lt a v end.
Lemma side_before k : side k = false -> before k <> [] /\ pid H k = final H (before k).
Proof.
  destruct k as [|[c x a r|c l x a] k]; cbn [side before pid floc]; try done. intros _.
  split; [|by rewrite app_assoc, final_snoc]. intros X. apply app_eq_nil in X as [_ X]. by apply app_eq_nil in X as [_ X].
Qed.
Lemma unique_pos_ok s t v fuel : hold s H t -> length (elems t) < fuel ->
  insert_unique_pos lt fuel H v s =
    Ok (pid H (descend lt v t []), side (descend lt v t []), absent v (before (descend lt v t []))).
Proof.
  intros Q Hf. unfold insert_unique_pos. rewrite (pos_ok lt H fuel s t v Q Hf). cbn [obind].
  rewrite (tbegin_ok H s t Q). cbn [obind]. destruct (descend_split lt v t []) as (k' & E1 & E2). rewrite app_nil_r in E1.
  rewrite E1 in *. clear E1. rename k' into k.
  destruct (side k) eqn:Es; cbn [andb].
  - destruct k as [|f k]; [cbn [pid]; rewrite bool_decide_eq_true_2 by done; cbn [orb]; done|].
    destruct f as [c x a r|]; [|done]. cbn [pid floc].
    assert (x <> H) as NxH.
    { intros ->. apply hold_nodup, NoDup_cons in Q as [N _]. apply N. rewrite <- E2, fmap_app. apply elem_of_app. right. left. }
    rewrite bool_decide_eq_false_2 by done. cbn [orb].
    destruct (decide (before (FL c x a r :: k) = [])) as [EB|EB].
    + rewrite <- E2, EB. cbn [app after first]. rewrite bool_decide_eq_true_2 by done. done.
    + rewrite bool_decide_eq_false_2; cycle 1.
      { intros X. apply hold_nodup, NoDup_cons in Q as [_ N]. rewrite <- E2 in X, N. rewrite first_app in X by done.
        destruct (first_in H _ EB) as [b Hb]. rewrite fmap_app in N. apply NoDup_app in N as (_ & N & _).
        apply (N x).
        - apply elem_of_list_fmap. exists (x, b). split; [done|]. by rewrite X.
        - cbn [after fmap list_fmap]. left. }
      cbn [obind]. cbn [after] in E2.
      rewrite (dec_ok H fuel s t (before (FL c x a r :: k)) x a (elems r ++ after k) Q) by (try exact EB; try done; try lia; by rewrite <- E2).
      cbn [obind].
      destruct (exists_last EB) as (i & [w b] & EL). rewrite EL in *. rewrite final_snoc.
      rewrite (hold_key H s t w b Q) by (rewrite <- E2, !elem_of_app; left; right; left). cbn [obind].
      unfold absent. by rewrite last_snoc.
  - cbn [obind]. destruct (side_before k Es) as [EB Ep]. destruct (exists_last EB) as (i & [w b] & EL). rewrite EL, final_snoc in Ep.
    rewrite Ep. rewrite (hold_key H s t w b Q) by (rewrite <- E2, EL, !elem_of_app; left; right; left). cbn [obind].
    unfold absent. by rewrite EL, last_snoc.
Qed.

(** 721-732 *)
Lemma emplace_unique_ok s t v fuel n : hold s H t -> wf s -> length (elems t) < fuel ->
  if absent v (before (descend lt v t [])) then
    exists s', emplace_unique lt fuel {| hd := H; ct := n |} v s = Ok (made s, true, {| hd := H; ct := n + 1 |}, s') /\
      hold s' H (insert lt (made s) v t) /\ made s' = S (made s) /\ wf s' /\
      forall q, foot H t q = 0 -> q <> made s -> cells s' !! q = cells s !! q
  else
    emplace_unique lt fuel {| hd := H; ct := n |} v s =
      Ok (pid H (descend lt v t []), false, {| hd := H; ct := n |}, {| cells := cells s; made := S (made s) |}).
Proof.
  intros Q W Hf. destruct (create_ok s t v Q W) as (E1 & Q1 & W1 & F1 & C1 & O1).
  destruct (insert_step s t v fuel Q W Hf) as (s' & E2 & R). rewrite E1 in E2. cbn [snd] in E2.
  unfold emplace_unique. rewrite E1. rewrite (key_ok _ _ _ _ C1 eq_refl). cbn [obind hd].
  rewrite (unique_pos_ok _ t v fuel Q1 Hf). cbn [obind]. destruct (absent v _).
  - rewrite E2. cbn [obind hd ct]. eauto.
  - unfold destory_node. rewrite (get_ok _ _ _ C1). cbn [obind cells made]. do 3 f_equal.
    apply delete_insert. apply W. lia.
Qed.

Lemma red_plug_eq (t u : tr) k : red t = red u -> red (plug t k) = red (plug u k).
Proof. revert t u. induction k as [|f k IH]; intros t u E; [done|]. cbn [plug]. apply IH. by destruct f as [[]|[]]. Qed.
Lemma red_plug_ne (t u : tr) k : k <> [] -> red (plug t k) = red (plug u k).
Proof. destruct k as [|f k]; [done|]. intros _. cbn [plug]. apply red_plug_eq. by destruct f as [[]|[]]. Qed.
Lemma red_plug_low t k : k <> [] -> low_black k -> red (plug t k) = false.
Proof.
  revert t. induction k as [|f k IH]; intros t; [done|]. intros _ LB. cbn [plug].
  destruct k as [|g k]; [|apply IH; [done|by apply low_black_tl in LB]].
  cbn in LB |- *. by destruct f as [[]|[]].
Qed.
Lemma efix_root (x : tr) k t' : efix x k = Some t' -> low_black k -> red t' = false.
Proof.
  revert x. induction k as [|f k IH]; intros x He LB.
  - cbn [efix] in He. destruct (red x) eqn:Hr; injection He as <-; [by destruct x|done].
  - cbn [efix] in He. destruct (red x); [injection He as <-; by apply (red_plug_low (paint Black x) (f :: k))|].
    pose proof (low_black_tl _ _ LB) as LB'.
    assert (forall u, (k = [] -> red u = false) -> red (plug u k) = false) as X.
    { intros u Hu. destruct k as [|g k']; [by apply Hu|by apply red_plug_low]. }
    assert (k = [] -> fcol f = Black) as Y by (intros ->; exact LB).
    assert (forall (u v w : tr) c x a y b, (k = [] -> c = Black) -> red v || red w = true ->
      (k = [] -> red (borrow_l c u x a v y b w) = false) /\ (k = [] -> red (borrow_r c v y b w x a u) = false)) as Z.
    { intros u v w c x' a y b Hc Hvw. unfold borrow_l, borrow_r.
      split; intros Hk; rewrite (Hc Hk); destruct (red v) eqn:Ev, (red w) eqn:Ew; try done.
      - by destruct v.
      - by destruct w. }
    destruct f as [cp p ap sib|cp sib p ap]; destruct sib as [|[] bl b ab br]; try done; cbn [fcol] in Y.
    + destruct bl; injection He as <-; by apply X.
    + destruct (red bl || red br) eqn:Hr; [injection He as <-; by apply X, Z|by apply IH in He].
    + destruct br; injection He as <-; by apply X.
    + destruct (red bl || red br) eqn:Hr; [injection He as <-; by apply X, Z|by apply IH in He].
Qed.

Lemma elems_remove c l z az r k t' : remove (T c l z az r) k = Some t' ->
  elems t' = (before k ++ elems l) ++ elems r ++ after k.
Proof.
  assert (forall c x k t', match c with Red => Some (plug x k) | Black => efix x k end = Some t' ->
    elems t' = before k ++ elems x ++ after k) as X.
  { intros [] x k0 t0 He; [injection He as <-; apply elems_plug|by apply elems_efix]. }
  unfold remove. destruct l as [|cl ll xl al rl].
  - intros He. rewrite (X _ _ _ _ He). cbn. by rewrite app_nil_r.
  - destruct r as [|cr lr xr ar rr].
    + intros He. rewrite (X _ _ _ _ He). cbn [elems app]. by rewrite <- !app_assoc.
    + set (r := T cr lr xr ar rr). pose proof (unmin_plug r []) as E1. destruct (unmin_ctx r []) as (k' & E2 & E3).
      destruct (unmin_shape r [] ltac:(done)) as (cy & y & ay & ry & E4). destruct (unmin r []) as [u kr].
      cbn [fst snd] in *. subst u. rewrite app_nil_r in E2. subst k'. intros He. rewrite (X _ _ _ _ He).
      cbn [plug] in E1. rewrite <- E1, elems_plug, E3. rewrite before_app, after_app. cbn [before after elems app].
      rewrite E3, app_nil_r. cbn [app]. rewrite <- ?app_assoc. cbn [app]. rewrite <- ?app_assoc. done.
Qed.

(** 427-549 *)
Lemma erase_rebalance_ok fuel s c l z az r k : hold s H (plug (T c l z az r) k) ->
  length (elems (plug (T c l z az r) k)) < fuel ->
  match remove (T c l z az r) k with
  | Some t' =>
      exists s', erase_rebalance fuel H z s = Ok s' /\ hold s' H t' /\ made s' = made s /\ is_Some (cells s' !! z) /\
        (forall q, foot H t' q = foot H (plug (T c l z az r) k) q - bit z q) /\
        forall q, foot H (plug (T c l z az r) k) q = 0 -> cells s' !! q = cells s !! q
  | None => erase_rebalance fuel H z s = Fuel
  end.
Proof.
  intros Q Hf. pose proof (hold_focus _ _ _ _ Q) as P. pose proof (low_black_red _ _ (proj2 Q)) as LB.
  pose proof (length_ctx k (T c l z az r)) as Hk. 
  assert (forall x k' cc s1, erase_unlink fuel H z s = Ok (id x, pid H k', cc, s1) ->
    here H (fun q => foot H (plug (T c l z az r) k) q - bit z q) s1 (least H (plug x k')) (most H (plug x k')) x k' ->
    made s1 = made s -> is_Some (cells s1 !! z) -> 
    (forall q, foot H (plug (T c l z az r) k) q = 0 -> cells s1 !! q = cells s !! q) ->
    low_black k' -> (cc = Red -> k' <> []) -> length k' < fuel -> 0 < foot H (plug (T c l z az r) k) z ->
    match (match cc with Red => Some (plug x k') | Black => efix x k' end) with
    | Some t' =>
        exists s', erase_rebalance fuel H z s = Ok s' /\ hold s' H t' /\ made s' = made s /\ is_Some (cells s' !! z) /\
          (forall q, foot H t' q = foot H (plug (T c l z az r) k) q - bit z q) /\
          forall q, foot H (plug (T c l z az r) k) q = 0 -> cells s' !! q = cells s !! q
    | None => erase_rebalance fuel H z s = Fuel
    end) as Rest.
  { intros x k' cc s1 E1 P1 M1 Z1 O1 LB' Hne Hk' Hz. unfold erase_rebalance. rewrite E1. cbn [obind].
    assert (forall s' t', At H (fun q => foot H (plug (T c l z az r) k) q - bit z q) s1 s' (least H (plug x k')) (most H (plug x k')) t' [] ->
      red t' = false -> elems t' = elems (plug x k') ->
      hold s' H t' /\ made s' = made s /\ is_Some (cells s' !! z) /\
        (forall q, foot H t' q = foot H (plug (T c l z az r) k) q - bit z q) /\
        forall q, foot H (plug (T c l z az r) k) q = 0 -> cells s' !! q = cells s !! q) as Fin.
    { intros s' t' P2 Hr Ee. destruct P2 as [P21 P22 P23 P24 P25 P26].
      assert (forall q, foot H t' q = foot H (plug (T c l z az r) k) q - bit z q) as HF.
      { intros q. rewrite <- P23. unfold foot. cbn [ccnt]. lia. }
      split; [split; [|done]|].
      - unfold least, most in *. rewrite Ee. split; auto.
        + intros q. rewrite HF. auto.
      - split; [congruence|]. split; [|split; [done|]].
        + rewrite P26; [done|]. pose proof (at_one _ _ _ _ _ _ _ _ P z). rewrite bit_same. lia.
        + intros q Hq. rewrite P26 by lia. by apply O1. }
    destruct cc.
    - rewrite bool_decide_eq_true_2 by done. exists s1. split; [done|]. apply Fin; [by apply pn| |done].
      apply red_plug_low; [by apply Hne|done].
    - rewrite bool_decide_eq_false_2 by done.
      destruct (erase_loop_ok H _ _ fuel s1 x k' P1) as [(t' & He & x' & s2 & s3 & E2 & E3 & P3)|(E2 & [He|He])].
      + rewrite He, E2. cbn [obind]. exists s3. split; [done|]. apply Fin; [done|by apply (efix_root x k')|].
        rewrite elems_plug. by apply elems_efix.
      + rewrite He, E2. done.
      + lia. }
  assert (0 < foot H (plug (T c l z az r) k) z) as Hz.
  { unfold foot. rewrite cnt_plug. cbn [cnt]. rewrite bit_same. lia. }
  assert ((l = E \/ r = E) \/ ~ (l = E \/ r = E)) as [Hlr|Hlr] by (destruct l, r; (by left; left) || (by left; right) || (right; intros [|]; done)).
  - destruct (unlink_one H fuel _ s c l z az r k P Hlr) as (s1 & E1 & P1 & M1 & Z1 & O1); [lia|].
    set (x := match l with E => r | _ => l end) in *.
    specialize (Rest x k c s1 E1 P1 M1 Z1 O1 LB). replace (remove (T c l z az r) k) with (match c with Red => Some (plug x k) | Black => efix x k end); cycle 1.
    { unfold remove, x. destruct Hlr as [-> | ->]; [done|]. by destruct l. }
    apply Rest; [|lia|done]. intros -> ->. destruct Q as [_ Q]. done.
  - destruct l as [|cl ll xl al lr]; [tauto|]. destruct r as [|cr rl xr ar rr]; [tauto|]. set (l := T cl ll xl al lr) in *. set (r := T cr rl xr ar rr) in *.
    pose proof (unmin_plug r []) as U1. destruct (unmin_ctx r []) as (k' & U2 & U3).
    destruct (unmin_shape r [] ltac:(done)) as (cy & y & ay & ry & U4).
    cbn [remove]. fold l r. destruct (unmin r []) as [u kr] eqn:EU. cbn [fst snd] in *. subst u. rewrite app_nil_r in U2. subst k'.
    cbn [plug] in U1. 
    assert (length (elems r) <= fuel) as Hfr.
    { cbn [elems] in Hk. rewrite app_length in Hk. cbn [length] in Hk. lia. }
    destruct (unlink_two H fuel _ s _ _ c cl ll xl al lr z az r k cy y ay ry kr P (eq_sym U1) U3 Hfr) as (s1 & E1 & P1 & M1 & Z1 & O1).
    fold l in P1.
    assert (elems r = (y, ay) :: elems ry ++ after kr) as Er by (rewrite <- U1, elems_plug, U3; done).
    assert (forall q, q = plug ry (kr ++ FR c l y ay :: k) -> least H q = least H (plug (T c l z az r) k) /\ most H q = most H (plug (T c l z az r) k)) as LM.
    { intros q ->. unfold least, most. rewrite plug_app. cbn [plug fill]. rewrite !elems_plug. cbn [elems]. rewrite elems_plug, U3. cbn [app].
      rewrite <- !app_assoc. split; f_equal.
      - destruct (before k) as [|[? ?] ?]; [|done]. cbn [app]. fold l. rewrite !(first_app _ (elems l)); [done| |]; cbn; by destruct (elems ll).
      - fold r. rewrite Er. cbn [app]. rewrite !final_app by (try done; by destruct (elems l)). rewrite !final_cons, <- app_assoc. done. }
    destruct (LM _ eq_refl) as [L1 L2].
    apply (Rest ry (kr ++ FR c l y ay :: k) cy s1); try done.
    + rewrite E1. do 4 f_equal. destruct kr as [|f kr]; done.
    + rewrite L1, L2. apply at_plug. by apply dr.
    + apply (low_black_red ry). rewrite plug_app. cbn [plug fill]. 
      rewrite (red_plug_eq _ (T c l z az r)) by (by destruct c). exact (proj2 Q).
    + intros _. by destruct kr.
    + rewrite app_length. cbn [length]. pose proof (length_ctx kr (T cy E y ay ry)) as X. rewrite U1 in X. cbn [elems length app] in X.
      cbn [elems] in Hk. rewrite app_length in Hk. cbn [length] in Hk. lia.
Qed.

(** 781-797 *)
Lemma erase_ok fuel s n c l z az r k : hold s H (plug (T c l z az r) k) -> wf s ->
  length (elems (plug (T c l z az r) k)) < fuel ->
  match remove (T c l z az r) k with
  | Some t' =>
      exists s', erase fuel {| hd := H; ct := n |} z s = Ok (first H (elems r ++ after k), {| hd := H; ct := n - 1 |}, s') /\
        hold s' H t' /\ made s' = made s /\ wf s' /\ cells s' !! z = None /\
        (forall q, foot H t' q = foot H (plug (T c l z az r) k) q - bit z q) /\
        forall q, foot H (plug (T c l z az r) k) q = 0 -> cells s' !! q = cells s !! q
  | None => erase fuel {| hd := H; ct := n |} z s = Fuel
  end.
Proof.
  intros Q W Hf. pose proof (erase_rebalance_ok fuel s c l z az r k Q Hf) as X. unfold erase.
  rewrite (increment_ok H fuel s c l z az r k Q Hf). cbn [obind hd ct].
  destruct (remove (T c l z az r) k) as [t'|]; [|by rewrite X].
  destruct X as (s' & E1 & Q1 & M1 & [nz Z1] & F1 & O1). rewrite E1. cbn [obind]. unfold destory_node.
  rewrite (get_ok _ _ _ Z1). cbn [obind]. eexists. split; [reflexivity|]. cbn [cells made].
  assert (forall q, bit z q = 0 -> delete z (cells s') !! q = cells s' !! q) as D.
  { intros q Hq. apply lookup_delete_ne. by apply ne_of_bit. }
  split; [|split; [done|]; split; [|split; [apply lookup_delete|split; [done|]]]].
  - apply (hold_frame s'); [|done]. intros q Hq. cbn [cells]. apply D. rewrite F1 in Hq. pose proof (hold_le _ _ _ q Q) as X.
    unfold foot in Hq. lia.
  - intros q Hq. cbn [cells made] in *. rewrite M1 in Hq. destruct (decide (z = q)) as [<-|N]; [apply lookup_delete|].
    rewrite lookup_delete_ne by done. rewrite O1; [by apply W|]. by apply (wf_fresh s).
  - intros q Hq. rewrite D; [by apply O1|]. unfold foot in Hq. rewrite cnt_plug in Hq. cbn [cnt] in Hq. lia.
Qed.

(** 799-806 *)
Lemma erase_since_ok t : forall fuel s p, rep s t p -> (forall q, cnt t q <= 1) -> length (elems t) < fuel ->
  exists s', erase_since fuel (id t) s = Ok s' /\ made s' = made s /\
    forall q, cells s' !! q = if decide (0 < cnt t q) then None else cells s !! q.
Proof.
  induction t as [|c l IHl x a r IHr]; intros fuel s p R Hc Hf.
  - exists s. cbn [id]. destruct fuel; [lia|]. cbn. split; [done|]. split; [done|]. intros q. by destruct decide; [lia|].
  - cbn [rep] in R. destruct R as (Hx & Rl & Rr). cbn [elems] in Hf. rewrite app_length in Hf. cbn [length] in Hf.
    destruct fuel as [|fuel]; [lia|]. cbn [id erase_since cnt] in *. rewrite (right_ok _ _ _ Hx). cbn [obind rt].
    destruct (IHr fuel s x Rr) as (s1 & E1 & M1 & C1); [intros q; specialize (Hc q); lia|lia|].
    rewrite E1. cbn [obind].
    assert (cells s1 !! x = cells s !! x) as X1.
    { rewrite C1. destruct decide as [D|D]; [|done]. specialize (Hc x). rewrite bit_same in Hc. lia. }
    rewrite <- X1 in Hx. rewrite (left_ok _ _ _ Hx). cbn [obind lf]. unfold destory_node. rewrite (get_ok _ _ _ Hx). cbn [obind].
    set (s2 := {| cells := delete x (cells s1); made := made s1 |}).
    destruct (IHl fuel s2 x) as (s3 & E3 & M3 & C3).
    + apply (rep_frame s); [|done]. intros q Hq. unfold s2. cbn [cells]. specialize (Hc q).
      rewrite lookup_delete_ne by (apply ne_of_bit; lia). rewrite C1. destruct decide; [lia|done].
    + intros q. specialize (Hc q). lia.
    + lia.
    + exists s3. split; [done|]. split; [rewrite M3; done|]. intros q. rewrite C3. unfold s2. cbn [cells]. specialize (Hc q).
      destruct (decide (0 < cnt l q)) as [D1|D1].
      { destruct decide; [done|lia]. }
      destruct (decide (x = q)) as [<-|N]; [rewrite lookup_delete, (bit_same x); by destruct decide; [|lia]|].
      rewrite lookup_delete_ne by done. rewrite C1, (bit_ne x q) by done. destruct (decide (0 < cnt r q)), decide; try done; lia.
Qed.
(** 669-677 *)
Lemma clear_ok fuel s t n : hold s H t -> wf s -> length (elems t) < fuel -> (n = 0%Z <-> t = E) ->
  exists s', clear fuel {| hd := H; ct := n |} s = Ok ({| hd := H; ct := 0 |}, s') /\ hold s' H E /\ made s' = made s /\ wf s' /\
    (forall q, 0 < cnt t q -> cells s' !! q = None) /\
    forall q, foot H t q = 0 -> cells s' !! q = cells s !! q.
Proof.
  intros Q W Hf Hn. unfold clear. cbn [ct hd]. destruct (Z.eqb_spec n 0) as [En|En].
  - apply Hn in En as E. subst. exists s. split; [done|]. split; [done|]. split; [done|]. split; [done|]. split; [cbn; lia|done].
  - pose proof (hold_at _ _ _ Q) as P. rewrite (at_root _ _ _ _ _ _ P). cbn [obind plug].
    destruct (erase_since_ok t fuel s _ (at_rep _ _ _ _ _ _ _ _ P)) as (s1 & E1 & M1 & C1).
    { intros q. pose proof (hold_le _ _ _ q Q). lia. } { lia. }
    rewrite E1. cbn [obind]. pose proof (at_head _ _ _ _ _ _ P) as Ch.
    assert (cells s1 !! H = cells s !! H) as X.
    { rewrite C1. destruct decide as [D|D]; [|done]. pose proof (hold_le _ _ _ H Q) as Y. rewrite bit_same in Y. lia. }
    rewrite <- X in Ch. rewrite (set_lf_ok _ _ _ _ Ch). cbn [obind col lf rt pa vl].
    rewrite (set_rt_ok H _ _ _ (put_same _ _ _)). cbn [obind col lf rt pa vl].
    rewrite (set_pa_ok H _ _ _ (put_same _ _ _)). cbn [obind col lf rt pa vl].
    eexists. split; [reflexivity|]. 
    set (s2 := put H _ _).
    assert (forall q, q <> H -> cells s2 !! q = cells s1 !! q) as O2.
    { intros q Hq. unfold s2. by rewrite !put_ne by done. }
    split; [|split; [|split; [|split]]].
    + split; [|done]. split; try done.
      * cbn [repc]. apply put_same.
      * intros q. unfold foot. cbn. pose proof (bit_le H q). lia.
    + done.
    + intros q Hq. assert (made s <= q) as Hq' by (unfold s2 in Hq; cbn [put made] in Hq; lia).
      pose proof (wf_fresh s H t q W Q Hq') as Fq. unfold foot in Fq.
      rewrite O2 by (apply not_eq_sym, ne_of_bit; lia). rewrite C1. destruct decide; [done|]. by apply W.
    + intros q Hq. pose proof (hold_le _ _ _ q Q) as Y. rewrite O2 by (apply not_eq_sym, ne_of_bit; lia). rewrite C1.
      destruct decide; [done|lia].
    + intros q Hq. unfold foot in Hq. rewrite O2 by (apply not_eq_sym, ne_of_bit; lia). rewrite C1. destruct decide; [lia|done].
Qed.
End h.
End del.
