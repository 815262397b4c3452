(** Proofs about formats that end inside a conversion. *)
From stdpp Require Import gmap.
From Coq Require Import ZArith Lia ZifyBool ZifyNat ZifyN.
From Verif Require Import Base StringModel StringSpec StringProofs PrintfModel PrintfSpec PrintfProofs PrintfLoopProofs PrintfCutSpec.
Local Open Scope N_scope.
Local Open Scope fres_scope.

(** Every text without NUL is a format, whole or cut. *)
Fixpoint span (p : N -> bool) (l : list N) : list N * list N :=
  match l with
  | [] => ([], [])
  | x :: l' => if p x then (x :: (span p l').1, (span p l').2) else ([], l)
  end.
Lemma span_app p l : (span p l).1 ++ (span p l).2 = l.
Proof. induction l as [|x l IH]; [reflexivity|]. cbn [span]. destruct (p x); [cbn [fst snd app]; rewrite IH|]; reflexivity. Qed.
Lemma span_all p l : Forall (fun x => p x = true) (span p l).1.
Proof. induction l as [|x l IH]; [constructor|]. cbn [span]. destruct (p x) eqn:E; [constructor; assumption|constructor]. Qed.
Lemma span_head p l x r : (span p l).2 = x :: r -> p x = false.
Proof.
  induction l as [|y l IH]; [discriminate|]. cbn [span]. destruct (p y) eqn:E; [exact IH|]. cbn [snd]. intros [= <- _]. exact E.
Qed.
Definition digitb (c : N) : bool := (48 <=? c) && (c <=? 57).
Definition flagb (c : N) : bool := (c =? 117) || (c =? 109) || (c =? 88) || (c =? 120) || (c =? 42).
Lemma digitb_spec c : digitb c = true <-> is_digit c. Proof. unfold digitb, is_digit. lia. Qed.
Lemma flagb_spec c : flagb c = true <-> is_flag c. Proof. unfold flagb, is_flag. lia. Qed.
Lemma span_digits l : Forall is_digit (span digitb l).1.
Proof. eapply Forall_impl; [apply span_all|]. intros c. apply digitb_spec. Qed.
Lemma span_flags l : Forall is_flag (span flagb l).1.
Proof. eapply Forall_impl; [apply span_all|]. intros c. apply flagb_spec. Qed.

Lemma parse fmt : Forall (fun c => c <> 0) fmt ->
  exists ds, Forall wf_directive ds /\ (fmt = unparse ds \/ exists w f fr, cut_ok w f fr /\ fmt = unparse ds ++ cut_text w f fr).
Proof.
  remember (length fmt) as n eqn:En. revert fmt En. induction n as [n IH] using lt_wf_ind. intros fmt -> Hnz.
  destruct fmt as [|c rest]; [exists []; split; [constructor|left; reflexivity]|].
  inversion Hnz as [|? ? Hc Hr]; subst.
  assert (Hcons : forall d r, wf_directive d -> c :: rest = unparse1 d ++ r ->
    exists ds, Forall wf_directive ds /\
      (c :: rest = unparse ds \/ exists w f fr, cut_ok w f fr /\ c :: rest = unparse ds ++ cut_text w f fr)).
  { intros d r Hd E. assert (L : (length r < length (c :: rest))%nat).
    { rewrite E, app_length. destruct d; cbn [unparse1 length]; lia. }
    assert (Hr' : Forall (fun c => c <> 0) r) by (rewrite E in Hnz; apply Forall_app in Hnz; apply Hnz).
    destruct (IH _ L r eq_refl Hr') as (ds & Hds & Hor). exists (d :: ds). split; [constructor; assumption|].
    change (unparse (d :: ds)) with (unparse1 d ++ unparse ds). rewrite E. destruct Hor as [-> |(w & f & fr & Hk & ->)]; [left; reflexivity|].
    right. exists w, f, fr. split; [exact Hk|]. apply app_assoc. }
  destruct (N.eq_dec c 37) as [->|H37]; [|apply (Hcons (Lit c) rest); [split; assumption|reflexivity]].
  pose proof (span_app digitb rest) as A1. pose proof (span_digits rest) as D1. pose proof (span_head digitb rest) as S1.
  destruct (span digitb rest) as [w r1]. cbn [fst snd] in *.
  pose proof (span_app flagb r1) as A2. pose proof (span_flags r1) as D2. pose proof (span_head flagb r1) as S2.
  destruct (span flagb r1) as [f r2]. cbn [fst snd] in *. subst rest r1.
  destruct r2 as [|c r3].
  { exists []. split; [constructor|]. right. exists w, f, None. split; [split; [exact D1|split; [exact D2|exact I]]|reflexivity]. }
  assert (Hc0 : c <> 0). { rewrite !Forall_app in Hr. destruct Hr as (_ & _ & Hr). inversion Hr; assumption. }
  specialize (S2 c r3 eq_refl).
  destruct (N.eq_dec c 46) as [->|H46].
  - pose proof (span_app digitb r3) as A3. pose proof (span_digits r3) as D3. pose proof (span_head digitb r3) as S3.
    destruct (span digitb r3) as [ds r4]. cbn [fst snd] in *. subst r3. destruct r4 as [|c r5].
    { exists []. split; [constructor|]. right. exists w, f, (Some ds). split; [split; [exact D1|split; [exact D2|exact D3]]|].
      unfold cut_text. rewrite app_nil_r. reflexivity. }
    apply (Hcons (Conv w f (Some ds) c) r5).
    + split; [exact D1|]. split; [exact D2|]. split; [|split; [exact D3|]].
      * rewrite !Forall_app in Hr. destruct Hr as (_ & _ & Hr). inversion Hr as [|? ? _ Hr2]; subst. rewrite Forall_app in Hr2.
        destruct Hr2 as [_ Hr2]. inversion Hr2; assumption.
      * specialize (S3 c r5 eq_refl). rewrite <- digitb_spec. congruence.
    + cbn [unparse1]. cbn [app]. f_equal. rewrite <- !app_assoc. cbn [app]. rewrite <- !app_assoc. reflexivity.
  - apply (Hcons (Conv w f None c) r3).
    + split; [exact D1|]. split; [exact D2|]. split; [exact Hc0|]. split; [rewrite <- flagb_spec; congruence|]. split; [exact H46|].
      intros ->. specialize (S1 c r3 eq_refl). rewrite <- digitb_spec. congruence.
    + cbn [unparse1]. cbn [app]. f_equal. rewrite <- !app_assoc. reflexivity.
Qed.

(** One turn at the cut conversion: the NUL is taken for its letter. *)
Lemma step_cut bd pre w f fr s : cut_ok w f fr -> pfmt s = length pre -> base bd <= pbuf s -> pbuf s < last bd ->
  match take_stars (stars_of f) (pargs s) None with
  | None => step bd (pre ++ cut_text w f fr) s 37 = FErr BadArg
  | Some _ => exists s', step bd (pre ++ cut_text w f fr) s 37 = FOk s' /\ pfmt s' = S (length (pre ++ cut_text w f fr))
  end.
Proof.
  intros (Hw & Hf & Hfr) Hpre B1 B2.
  set (tl := match fr with Some ds => 46 :: ds | None => [] end).
  assert (E1 : pre ++ cut_text w f fr = (pre ++ [37]) ++ w ++ (f ++ tl)).
  { unfold cut_text. fold tl. rewrite <- !app_assoc. reflexivity. }
  assert (E2 : pre ++ cut_text w f fr = ((pre ++ [37]) ++ w) ++ f ++ tl) by (rewrite E1, <- !app_assoc; reflexivity).
  assert (E3 : pre ++ cut_text w f fr = (((pre ++ [37]) ++ w) ++ f) ++ tl) by (rewrite E1, <- !app_assoc; reflexivity).
  assert (L1 : S (pfmt s) = length (pre ++ [37])) by (rewrite Hpre, app_length; simpl; lia).
  assert (Hnd : ~ is_digit (head0 (f ++ tl))).
  { destruct f as [|x f]; cbn.
    - unfold tl. destruct fr as [ds|]; cbn; unfold is_digit; lia.
    - inversion Hf as [|? ? Hx _]; subst. unfold is_flag, is_digit in *. lia. }
  assert (Hlen : length (pre ++ cut_text w f fr) = (length pre + (1 + (length w + (length f + length tl))))%nat).
  { rewrite E1, !app_length. simpl. lia. }
  assert (H1 : fmt_at (pre ++ cut_text w f fr) (S (pfmt s)) = FOk (head0 (w ++ f ++ tl))) by (rewrite L1, E1; apply fmt_at_head).
  assert (H2 : scan_digits (length (pre ++ cut_text w f fr)) (pre ++ cut_text w f fr) (S (pfmt s)) 0 =
    FOk (length ((pre ++ [37]) ++ w), width_from 0 w)).
  { rewrite L1. rewrite E1 at 2. rewrite scan_digits_run; [|exact Hw|exact Hnd|rewrite Hlen; lia]. rewrite (app_length _ w). reflexivity. }
  destruct (take_stars (stars_of f) (pargs s) None) as [[cnt args1]|] eqn:Hst.
  - assert (H3 : exists fl, scan_flags (S (length (pre ++ cut_text w f fr))) (pre ++ cut_text w f fr) (length ((pre ++ [37]) ++ w)) (pargs s) flags0 =
      FOk (length (pre ++ cut_text w f fr), args1, fl)).
    { pose proof (scan_flags_run f ((pre ++ [37]) ++ w) tl (S (length (pre ++ cut_text w f fr))) (pargs s) args1 None cnt flags0 (10, false)
        Hf ltac:(rewrite Hlen; lia) Hst eq_refl eq_refl) as G.
      rewrite <- E2, <- app_length in G. rewrite G. clear G.
      assert (Hfu : (length f < S (length (pre ++ cut_text w f fr)))%nat) by (rewrite Hlen; lia).
      destruct (S (length (pre ++ cut_text w f fr)) - length f)%nat as [|fu] eqn:Efu; [lia|]. clear Efu Hfu.
      destruct fr as [ds|].
      - assert (Hat : fmt_at (pre ++ cut_text w f (Some ds)) (length (((pre ++ [37]) ++ w) ++ f)) = FOk 46).
        { rewrite E3. apply fmt_at_head. }
        cbn [scan_flags]. rewrite Hat. cbn [fbind N.eqb Pos.eqb].
        assert (E4 : pre ++ cut_text w f (Some ds) = ((((pre ++ [37]) ++ w) ++ f) ++ [46]) ++ ds ++ []).
        { rewrite E3. unfold tl. rewrite <- !app_assoc. rewrite app_nil_r. reflexivity. }
        replace (S (length (((pre ++ [37]) ++ w) ++ f))) with (length ((((pre ++ [37]) ++ w) ++ f) ++ [46]))
          by (rewrite (app_length _ [46]); simpl; lia).
        assert (G : forall v, scan_digits (length (pre ++ cut_text w f (Some ds))) (pre ++ cut_text w f (Some ds))
          (length ((((pre ++ [37]) ++ w) ++ f) ++ [46])) v = FOk (Nat.add (length ((((pre ++ [37]) ++ w) ++ f) ++ [46])) (length ds), width_from v ds)).
        { intros v. pose proof (scan_digits_run ds ((((pre ++ [37]) ++ w) ++ f) ++ [46]) [] (length (pre ++ cut_text w f (Some ds))) v Hfr
            ltac:(cbn; unfold is_digit; lia) ltac:(rewrite Hlen; unfold tl; simpl length; lia)) as G. rewrite <- E4 in G. exact G. }
        rewrite G. cbn [fbind]. eexists. f_equal. f_equal. f_equal. rewrite E4, app_nil_r. symmetry. apply app_length.
      - assert (Hat : fmt_at (pre ++ cut_text w f None) (length (((pre ++ [37]) ++ w) ++ f)) = FOk 0).
        { rewrite E3. apply fmt_at_head. }
        cbn [scan_flags]. rewrite Hat. cbn [fbind N.eqb Pos.eqb]. eexists. f_equal. f_equal. f_equal. rewrite E3. unfold tl. rewrite app_nil_r. reflexivity. }
    destruct H3 as [fl H3]. unfold step. cbn [N.eqb Pos.eqb]. cbv zeta. rewrite H1. cbn [fbind]. rewrite H2. cbn [fbind]. rewrite H3. cbn [fbind].
    assert (H4 : fmt_at (pre ++ cut_text w f fr) (length (pre ++ cut_text w f fr)) = FOk 0).
    { pose proof (fmt_at_head (pre ++ cut_text w f fr) []) as H. rewrite app_nil_r in H. exact H. }
    unfold convert. rewrite H4. cbn [fbind N.eqb]. unfold put. replace ((base bd <=? pbuf s) && (pbuf s <? last bd)) with true by lia. cbn [fbind].
    eexists. split; reflexivity.
  - unfold step. cbn [N.eqb Pos.eqb]. cbv zeta. rewrite H1. cbn [fbind]. rewrite H2. cbn [fbind].
    pose proof (scan_flags_nostars f ((pre ++ [37]) ++ w) tl (S (length (pre ++ cut_text w f fr))) (pargs s) None flags0
      Hf ltac:(rewrite Hlen; lia) Hst) as G. rewrite <- E2 in G. rewrite G. reflexivity.
Qed.

(** The whole directives before it. *)
Lemma vloop_prefix bd m0 rest ds : forall pre fuel s out args',
  wfb bd -> Forall wf_directive ds -> held m0 (pm s) bd ->
  mapped (pm s) (base bd) (last bd - base bd) ->
  base bd <= pbuf s -> pbuf s <= last bd -> (length ds <= fuel)%nat ->
  pfmt s = length pre ->
  renders_all m0 ds (pargs s) out args' ->
  if N.of_nat (length out) <? last bd - pbuf s then
    exists s', vloop fuel bd (pre ++ unparse ds ++ rest) s = vloop (fuel - length ds) bd (pre ++ unparse ds ++ rest) s' /\
      pbuf s' = pbuf s + N.of_nat (length out) /\ pfmt s' = length (pre ++ unparse ds) /\ pargs s' = args'
  else exists s', vloop fuel bd (pre ++ unparse ds ++ rest) s = FOk s'.
Proof.
  induction ds as [|d ds IH]; intros pre fuel s out args' Hw Hds Hh Hm H1 H2 Hfu Hp Hr.
  - inversion Hr; subst. cbn [length N.of_nat unparse map concat app]. destruct (0 <? last bd - pbuf s) eqn:E.
    + exists s. rewrite Nat.sub_0_r, N.add_0_r, app_nil_r. repeat split; assumption.
    + exists s. eapply vloop_full; [rewrite Hp; apply fmt_at_head|lia].
  - inversion Hr as [|? ? ? o ? os ? Hr1 Hr2]; subst. inversion Hds as [|? ? Hd Hds']; subst.
    change (unparse (d :: ds)) with (unparse1 d ++ unparse ds). rewrite <- (app_assoc (unparse1 d)).
    assert (Hat := fmt_at_head pre (unparse1 d ++ unparse ds ++ rest)).
    destruct (decide (pbuf s < last bd)) as [Hlt|Hge].
    + destruct fuel as [|fuel]; [simpl in Hfu; lia|]. simpl in Hfu.
      pose proof (head_directive d (unparse ds ++ rest) Hd) as Hne.
      destruct (step_renders bd m0 pre d (unparse ds ++ rest) s _ o _ Hw Hd Hh Hm H1 Hlt Hp Hat Hr1) as (m1 & Es & Ht1).
      assert (Hv : vloop (S fuel) bd (pre ++ unparse1 d ++ unparse ds ++ rest) s =
        vloop fuel bd (pre ++ unparse1 d ++ unparse ds ++ rest)
          {| pm := m1; pbuf := pbuf s + N.of_nat (length (take (room bd (pbuf s)) o)); pfmt := (length pre + length (unparse1 d))%nat; pargs := args1 |}).
      { cbn [vloop]. rewrite Hp, Hat. cbn [fbind]. replace (negb _ && _) with true by lia. rewrite Es. reflexivity. }
      rewrite Hv. clear Hv. rewrite (app_assoc pre).
      assert (Hb1 : pbuf s <= pbuf s + N.of_nat (length (take (room bd (pbuf s)) o)) <= last bd) by (rewrite take_length; unfold room; lia).
      specialize (IH (pre ++ unparse1 d) fuel
        {| pm := m1; pbuf := pbuf s + N.of_nat (length (take (room bd (pbuf s)) o)); pfmt := (length pre + length (unparse1 d))%nat; pargs := args1 |} os args').
      cbn [pm pbuf pfmt pargs] in IH.
      assert (P : held m0 m1 bd) by (apply (held_written m0 (pm s) bd (pbuf s) (take (room bd (pbuf s)) o) m1); try assumption; lia).
      assert (Q : mapped m1 (base bd) (last bd - base bd)) by (eapply mapped_written; eassumption).
      specialize (IH Hw Hds' P Q ltac:(lia) ltac:(lia) ltac:(lia) ltac:(rewrite app_length; reflexivity) Hr2).
      rewrite app_length.
      destruct (N.of_nat (length os) <? last bd - (pbuf s + N.of_nat (length (take (room bd (pbuf s)) o)))) eqn:E1.
      * rewrite take_length in E1, IH. unfold room in E1, IH.
        replace (N.of_nat (length o + length os) <? last bd - pbuf s) with true by lia.
        destruct IH as (s' & I1 & I2 & I3 & I4). exists s'. rewrite take_length. unfold room.
        split; [exact I1|]. split; [lia|]. split; [|exact I4]. rewrite I3. rewrite !app_length. lia.
      * rewrite take_length in E1. unfold room in E1.
        replace (N.of_nat (length o + length os) <? last bd - pbuf s) with false by lia. exact IH.
    + replace (N.of_nat (length (o ++ os)) <? last bd - pbuf s) with false by lia. exists s. eapply vloop_full; [rewrite Hp; exact Hat|lia].
Qed.

Lemma cut_exact m buf max ds w f fr args out args' m0 : Forall wf_directive ds -> cut_ok w f fr -> renders_all m0 ds args out args' ->
  0 < buf -> buf + max < 2 ^ 64 -> mapped m buf max ->
  (forall x v, m0 !! x = Some v -> m !! x = Some v /\ (x < buf \/ buf + max <= x)) ->
  (snprintf m buf max (unparse ds ++ cut_text w f fr) args = FErr FmtOver <->
   N.of_nat (length out) < max /\ take_stars (stars_of f) args' None <> None).
Proof.
  intros Hds Hk Hr Hb Hmax Hm Hh. unfold snprintf, vslprintf. cbv zeta.
  set (bd := {| base := buf; last := buf + max |}).
  assert (Hw : wfb bd) by (unfold wfb, bd; cbn [base last]; lia).
  pose proof (vloop_prefix bd m0 (cut_text w f fr) ds [] (S (length (unparse ds ++ cut_text w f fr)))
    {| pm := m; pbuf := buf; pfmt := 0; pargs := args |} out args') as H. cbn [pm pbuf pfmt pargs app length] in H.
  assert (X : base bd = buf /\ last bd = buf + max) by (split; reflexivity). destruct X as [X1 X2]. rewrite X1, X2 in H.
  replace (buf + max - buf) with max in H by lia.
  specialize (H Hw Hds Hh Hm ltac:(lia) ltac:(lia)).
  pose proof (length_unparse ds) as Lu. specialize (H ltac:(rewrite app_length; lia) eq_refl Hr).
  assert (Hpr : forall s, (if pbuf s <? buf + max then put bd (pm s) (pbuf s) 0 else FOk (pm s, pbuf s)) <> FErr FmtOver).
  { intros s. destruct (pbuf s <? buf + max); [apply put_nofmt|discriminate]. }
  destruct (N.of_nat (length out) <? max) eqn:E.
  - destruct H as (s' & -> & H2 & H3 & H4).
    assert (Lf : (1 <= S (length (unparse ds ++ cut_text w f fr)) - length ds)%nat) by (rewrite app_length; lia).
    destruct (S (length (unparse ds ++ cut_text w f fr)) - length ds)%nat as [|fu] eqn:Efu; [lia|]. clear Lf Efu.
    pose proof (step_cut bd (unparse ds) w f fr s' Hk H3 ltac:(lia) ltac:(lia)) as Hs. rewrite H4 in Hs.
    assert (Hat : fmt_at (unparse ds ++ cut_text w f fr) (pfmt s') = FOk 37) by (rewrite H3; apply (fmt_at_head (unparse ds))).
    cbn [vloop]. rewrite Hat. cbn [fbind N.eqb negb]. rewrite X2. replace (true && (pbuf s' <? buf + max)) with true by lia.
    destruct (take_stars (stars_of f) args' None) as [y|].
    + destruct Hs as (s'' & -> & P). cbn [fbind].
      assert (Hov : fmt_at (unparse ds ++ cut_text w f fr) (pfmt s'') = FErr FmtOver).
      { unfold fmt_at. rewrite P. rewrite lookup_ge_None_2 by lia. replace (_ =? _)%nat with false by lia. reflexivity. }
      split; [intros _; split; [lia|discriminate]|]. intros _. destruct fu; cbn [vloop]; rewrite Hov; reflexivity.
    + rewrite Hs. cbn [fbind]. split; [discriminate|]. intros [_ Hn]. contradiction.
  - destruct H as (s' & ->). cbn [fbind]. split; [intros Hx; exfalso; apply (Hpr s' Hx)|]. intros [Hx _]. lia.
Qed.

(** When the buffer holds a NUL afterwards. *)
Lemma terminated_exact m buf max ds args out args' m0 : Forall wf_directive ds -> renders_all m0 ds args out args' ->
  0 < buf -> buf + max < 2 ^ 64 -> mapped m buf max ->
  (forall x v, m0 !! x = Some v -> m !! x = Some v /\ (x < buf \/ buf + max <= x)) ->
  exists m' e, snprintf m buf max (unparse ds) args = FOk (m', e) /\
    ((exists x, buf <= x < buf + max /\ m' !! x = Some 0) <-> N.of_nat (length out) < max \/ 0 ∈ take (N.to_nat max) out).
Proof.
  intros Hds Hr Hb Hmax Hm Hh. destruct (snprintf_renders m buf max ds args out args' m0 Hds Hr Hb Hmax Hm Hh) as (m' & E & T).
  eexists m', _. split; [exact E|]. destruct (N.lt_ge_cases (N.of_nat (length out)) max) as [L|L].
  - split; [intros _; left; exact L|]. intros _. exists (buf + N.of_nat (length out)). split; [lia|].
    rewrite T. rewrite take_ge by (rewrite app_length; cbn [length]; lia). rewrite app_length. cbn [length].
    replace ((buf <=? buf + N.of_nat (length out)) && (buf + N.of_nat (length out) <? buf + N.of_nat (length out + 1))) with true by lia.
    replace (N.to_nat (buf + N.of_nat (length out) - buf)) with (length out) by lia. apply list_lookup_middle. reflexivity.
  - assert (Et : take (N.to_nat max) (out ++ [0]) = take (N.to_nat max) out) by (apply take_app_le; lia). rewrite Et in T.
    assert (Lt : length (take (N.to_nat max) out) = N.to_nat max) by (rewrite take_length; lia).
    split.
    + intros (x & Hx & Hz). right. rewrite T, Lt in Hz.
      replace ((buf <=? x) && (x <? buf + N.of_nat (N.to_nat max))) with true in Hz by lia. eapply elem_of_list_lookup_2, Hz.
    + intros [H|H]; [lia|]. apply elem_of_list_lookup in H as [i Hi]. pose proof (lookup_lt_Some _ _ _ Hi) as Hl. rewrite Lt in Hl.
      exists (buf + N.of_nat i). split; [lia|]. rewrite T, Lt.
      replace ((buf <=? buf + N.of_nat i) && (buf + N.of_nat i <? buf + N.of_nat (N.to_nat max))) with true by lia.
      replace (N.to_nat (buf + N.of_nat i - buf)) with i by lia. exact Hi.
Qed.

(** "a%04xd%c%s" followed by "%5*" *)
Definition demo_cut : list N := cut_text [53] [42] None.
Lemma demo_cut_ok : cut_ok [53] [42] None /\ demo_cut = [37; 53; 42].
Proof.
  split; [|reflexivity]. split; [apply Forall_cons_2; [unfold is_digit; lia|apply Forall_nil_2]|].
  split; [apply Forall_cons_2; [unfold is_flag; lia|apply Forall_nil_2]|exact I].
Qed.
