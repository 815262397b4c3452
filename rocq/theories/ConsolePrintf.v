(** Proofs about printf: the formatted text reaches the screen. *)
From stdpp Require Import gmap.
From Coq Require Import ZArith Lia ZifyBool ZifyNat ZifyN.
From Verif Require Import Base StringModel StringSpec StringProofs PrintfModel PrintfSpec PrintfProofs PrintfLoopProofs PrintfExamples VesaModel VesaSpec VesaProofs
  ConsoleModel ConsoleSpec ConsoleProofs.
Local Open Scope outcome_scope.

(** ** Reading a string back *)
Lemma mapped_size n : forall (m : gmap N N) a, mapped m a (N.of_nat n) -> (n <= size m)%nat.
Proof.
  induction n as [|n IH]; intros m a H; [lia|].
  destruct (H (N.of_nat n) ltac:(lia)) as [v Hv].
  specialize (IH (delete (a + N.of_nat n)%N m) a).
  rewrite map_size_delete, Hv in IH. 
  assert (size m <> 0%nat). { intros E. apply map_size_empty_inv in E. subst. rewrite lookup_empty in Hv. discriminate. }
  assert (mapped (delete (a + N.of_nat n)%N m) a (N.of_nat n)); [|specialize (IH H1); lia].
  intros i Hi. rewrite lookup_delete_ne by lia. apply H. lia.
Qed.
Lemma load_bytes_list m (l : list N) : forall a, (forall i c, l !! i = Some c -> m !! (a + N.of_nat i)%N = Some c) ->
  load_bytes m a (length l) = Ok l.
Proof.
  induction l as [|c l IH]; intros a H; [reflexivity|]. cbn [length load_bytes]. unfold load8.
  pose proof (H 0%nat c eq_refl) as H0. replace (a + N.of_nat 0)%N with a in H0 by lia. rewrite H0. cbn [of_option obind].
  rewrite IH; [reflexivity|]. intros i d Hi. replace (a + 1 + N.of_nat i)%N with (a + N.of_nat (S i))%N by lia. apply H. exact Hi.
Qed.
Lemma view_of_list m a l : m !! (a + N.of_nat (length l))%N = Some 0%N -> Forall (fun c => c <> 0%N) l ->
  (forall i c, l !! i = Some c -> m !! (a + N.of_nat i)%N = Some c) -> view_of m a = Ok l.
Proof.
  intros H0 Hn Hl. unfold view_of.
  assert (Hc : cstring_at m a (N.of_nat (length l))).
  { split; [exact H0|]. intros i Hi. destruct (lookup_lt_is_Some_2 l (N.to_nat i)) as [c Hc]; [lia|].
    exists c. split; [|eapply (Forall_lookup_1 _ _ _ _ Hn Hc)]. apply Hl in Hc. replace (a + N.of_nat (N.to_nat i))%N with (a + i)%N in Hc by lia. exact Hc. }
  rewrite (strlen_ok m a (N.of_nat (length l))).
  - cbn [obind]. rewrite Nat2N.id. apply load_bytes_list. exact Hl.
  - exact Hc.
  - rewrite Nat2N.id. pose proof (mapped_size (length l) m a) as Hs. apply Nat.lt_succ_r, Hs.
    intros i Hi. destruct (proj2 Hc i Hi) as (b & Hb & _). eauto.
Qed.
Lemma upto_nul_spec l : exists r, l ++ [0%N] = upto_nul l ++ 0%N :: r.
Proof.
  induction l as [|c l [r IH]]; [exists []; reflexivity|]. cbn [upto_nul app]. destruct (N.eqb_spec c 0) as [->|Hc].
  - exists (l ++ [0%N]). reflexivity.
  - exists r. cbn [app]. f_equal. exact IH.
Qed.
Lemma upto_nul_no l : Forall (fun c => c <> 0%N) (upto_nul l).
Proof. induction l as [|c l IH]; cbn [upto_nul]; [constructor|]. destruct (N.eqb_spec c 0); constructor; assumption. Qed.
Lemma upto_nul_none l : Forall (fun c => c <> 0%N) l -> upto_nul l = l.
Proof. induction 1 as [|c l Hc _ IH]; cbn [upto_nul]; [reflexivity|]. destruct (N.eqb_spec c 0); [contradiction|]. f_equal. exact IH. Qed.

Lemma written_at m a cs m' i c : text_written m a cs m' -> cs !! i = Some c -> m' !! (a + N.of_nat i)%N = Some c.
Proof.
  intros H Hi. rewrite H. pose proof (lookup_lt_Some _ _ _ Hi). replace ((a <=? a + N.of_nat i)%N && (a + N.of_nat i <? a + N.of_nat (length cs))%N) with true by lia.
  replace (N.to_nat (a + N.of_nat i - a)) with i by lia. exact Hi.
Qed.

(** ** One call *)
Lemma ready_written m0 buf m cs m' : ready m0 buf m -> (length cs <= 1024)%nat -> text_written m buf cs m' -> ready m0 buf m'.
Proof.
  intros [H1 H2] Hl Hw. split.
  - intros i Hi. rewrite Hw. case_match eqn:E; [|apply H1, Hi]. apply lookup_lt_is_Some. lia.
  - intros x v Hx. destruct (H2 x v Hx) as [E1 E2]. split; [|exact E2]. rewrite Hw.
    replace ((buf <=? x)%N && (x <? buf + N.of_nat (length cs))%N) with false by lia. exact E1.
Qed.
Lemma formatted m0 buf m ds args out args' : Forall wf_directive ds -> renders_all m0 ds args out args' ->
  (0 < buf)%N -> (buf + 1024 < 2 ^ 64)%N -> ready m0 buf m ->
  exists m' e, vslprintf m buf (buf + 1024) (unparse ds) args = FOk (m', e) /\ ready m0 buf m' /\
    text_written m buf (take 1024 (out ++ [0%N])) m'.
Proof.
  intros Hd Hr Hb Hb2 [H1 H2].
  destruct (snprintf_renders m buf 1024 ds args out args' m0 Hd Hr Hb Hb2 H1 H2) as (m' & E & W).
  change (N.to_nat 1024) with 1024%nat in W. exists m'. eexists. split; [exact E|]. split; [|exact W]. apply (ready_written m0 buf m (take 1024 (out ++ [0%N]))); [split; assumption| |exact W].
  rewrite take_length. lia.
Qed.
Lemma printf_text m0 buf ds args out args' k base c : Forall wf_directive ds -> renders_all m0 ds args out args' ->
  (0 < buf)%N -> (buf + 1024 < 2 ^ 64)%N -> ready m0 buf (k_mem k) -> (length out < 1024)%nat ->
  shows font WHITE base c (k_screen k) -> (0 <= xpos (k_screen k) < 180)%Z -> (0 <= ypos (k_screen k))%Z ->
  (if stays (as_text out) (xpos (k_screen k)) (ypos (k_screen k)) then
    exists k', printf buf (unparse ds) args k = Ok k' /\ ready m0 buf (k_mem k') /\
      shows font WHITE base (type_text (as_text out) c) (k_screen k') /\ (0 <= xpos (k_screen k') < 180)%Z /\ (0 <= ypos (k_screen k'))%Z
   else printf buf (unparse ds) args k = UB).
Proof.
  intros Hd Hr Hb Hb2 Hm Hl Hs Hx Hy.
  destruct (formatted m0 buf (k_mem k) ds args out args' Hd Hr Hb Hb2 Hm) as (m' & e & E & R & W).
  assert (V : view_of m' buf = Ok (upto_nul out)).
  { rewrite take_ge in W by (rewrite app_length; cbn; lia). destruct (upto_nul_spec out) as [r Er]. rewrite Er in W.
    apply view_of_list; [|apply upto_nul_no|].
    - apply (written_at _ _ _ _ _ _ W). rewrite lookup_app_r, Nat.sub_diag by lia. reflexivity.
    - intros i d Hi. apply (written_at _ _ _ _ _ _ W). rewrite lookup_app_l; [exact Hi|]. eapply lookup_lt_Some, Hi. }
  unfold printf. rewrite E, V. cbn [obind]. fold (as_text out).
  destruct (stays _ _ _) eqn:Es.
  - destruct (text_shows font WHITE base (as_text out) c _ Hs Hx Hy Es) as (s' & E' & S' & X' & Y').
    rewrite E'. cbn [obind]. eexists. split; [reflexivity|]. cbn [k_mem k_screen]. auto.
  - pose proof (print_stays font WHITE (as_text out) _ Hx Hy) as P. rewrite Es in P. rewrite P. reflexivity.
Qed.

(** ** Several calls *)
Lemma stays_app t1 t2 : forall x y k, (0 <= x < 180)%Z -> (0 <= y)%Z -> x = cx k -> y = cy k -> tidy k ->
  stays (t1 ++ t2) x y = stays t1 x y && stays t2 (cx (type_text t1 k)) (cy (type_text t1 k)).
Proof.
  induction t1 as [|c t1 IH]; intros x y k Hx Hy -> -> Hk; [reflexivity|].
  cbn [app stays type_text fold_left]. change (fold_left _ t1 ?q) with (type_text t1 q).
  destruct (Z.eqb_spec c 10) as [->|H10].
  - apply (IH _ _ (key 10 k)); try reflexivity; try lia. apply key_tidy, Hk.
  - destruct (cy k <? 56)%Z eqn:E56; [|reflexivity]. cbn [andb].
    assert (A : advance_n (if (c =? 9)%Z then 9 else 1) (cx k) (cy k) = (cx (key c k), cy (key c k))).
    { assert (S : forall d q, (0 <= cx q < 180)%Z -> (0 <= cy q < 56)%Z ->
        advance (cx q) (cy q) = (cx (strike d q), cy (strike d q)) /\ (0 <= cx (strike d q) < 180)%Z /\ (0 <= cy (strike d q) < 56)%Z).
      { intros d q Hqx Hqy. unfold advance, strike. destruct (Z.eqb_spec (180 * cy q + cx q + 1) (56 * 180)) as [E|E].
        - replace (56 * 180 <=? 180 * cy q + cx q + 1)%Z with true by lia. cbn [cx cy]. split; [reflexivity|]. split; lia.
        - replace (56 * 180 <=? 180 * cy q + cx q + 1)%Z with false by lia. cbn [cx cy]. split; [reflexivity|]. split; Z.div_mod_to_equations; lia. }
      assert (I : forall n d q, (0 <= cx q < 180)%Z -> (0 <= cy q < 56)%Z ->
        let q' := Nat.iter n (strike d) q in
        advance_n n (cx q) (cy q) = (cx q', cy q') /\ (0 <= cx q' < 180)%Z /\ (0 <= cy q' < 56)%Z).
      { induction n as [|n IHn]; intros d q Hqx Hqy; [cbn; auto|]. destruct (S d q Hqx Hqy) as (A & B & C). cbn [advance_n]. rewrite A, Nat.iter_succ_r. apply IHn; assumption. }
      destruct Hk as (K1 & K2 & _). unfold key. replace (c =? 10)%Z with false by lia. destruct (Z.eqb_spec c 9) as [->|].
      - destruct (I 8%nat 32%Z k K1 ltac:(lia)) as (A & B & C). rewrite (advance_n_app 8 1), A. cbn [advance_n].
        destruct (S 9%Z _ B C) as (A2 & _). rewrite A2. reflexivity.
      - cbn [advance_n]. destruct (S c k K1 ltac:(lia)) as (A & _). rewrite A. reflexivity. }
    rewrite A. pose proof (key_tidy c k Hk) as K'. apply (IH _ _ (key c k)); try reflexivity; try exact K'; destruct K' as (K1 & K2 & _); assumption.
Qed.
Lemma type_text_app t1 t2 k : type_text (t1 ++ t2) k = type_text t2 (type_text t1 k).
Proof. unfold type_text. apply fold_left_app. Qed.

Lemma printfs_text m0 buf cs : Forall (right_call m0) cs -> (0 < buf)%N -> (buf + 1024 < 2 ^ 64)%N -> forall k base c,
  ready m0 buf (k_mem k) -> shows font WHITE base c (k_screen k) -> tidy c ->
  let calls := map (fun c => (unparse (c_fmt c), c_args c)) cs in
  if stays (all_text cs) (xpos (k_screen k)) (ypos (k_screen k))
  then exists k', printfs buf calls k = Ok k' /\ ready m0 buf (k_mem k') /\
         shows font WHITE base (type_text (all_text cs) c) (k_screen k')
  else printfs buf calls k = UB.
Proof.
  intros H Hb Hb2. induction H as [|q cs Hq _ IH]; intros k base c Hm Hs Ht.
  - cbn. exists k. auto.
  - destruct Hq as (Hd & [rest Hr] & Hl). pose proof Hs as (Sx & Sy & _). pose proof Ht as (Tx & Ty & _).
    assert (Kx : (0 <= xpos (k_screen k) < 180)%Z) by (rewrite Sx; exact Tx).
    assert (Ky : (0 <= ypos (k_screen k))%Z) by (rewrite Sy; exact Ty).
    pose proof (printf_text m0 buf (c_fmt q) (c_args q) (c_out q) rest k base c Hd Hr Hb Hb2 Hm Hl Hs Kx Ky) as P.
    cbn [map printfs]. cbv zeta. change (all_text (q :: cs)) with (as_text (c_out q) ++ all_text cs).
    rewrite (stays_app (as_text (c_out q)) (all_text cs) _ _ c Kx Ky Sx Sy Ht).
    destruct (stays (as_text (c_out q)) (xpos (k_screen k)) (ypos (k_screen k))); cbn [andb].
    + destruct P as (k' & E & R & S' & _). rewrite E. cbn [obind].
      specialize (IH k' base (type_text (as_text (c_out q)) c) R S' (type_tidy _ _ Ht)). cbv zeta in IH.
      destruct S' as (Sx' & Sy' & _). rewrite Sx', Sy' in IH. rewrite type_text_app. exact IH.
    + rewrite P. reflexivity.
Qed.

(** ** Too long *)
Lemma printf_long m0 buf ds args out args' k tail base c : Forall wf_directive ds -> renders_all m0 ds args out args' ->
  (0 < buf)%N -> (buf + 1024 < 2 ^ 64)%N -> ready m0 buf (k_mem k) ->
  (1024 <= length out)%nat -> Forall (fun c => c <> 0%N) (take 1024 out) -> Forall (fun c => c <> 0%N) tail ->
  (forall i d, (tail ++ [0%N]) !! i = Some d -> k_mem k !! (buf + 1024 + N.of_nat i)%N = Some d) ->
  shows font WHITE base c (k_screen k) -> tidy c ->
  stays (map Z.of_N (take 1024 out ++ tail)) (xpos (k_screen k)) (ypos (k_screen k)) = true ->
  exists k', printf buf (unparse ds) args k = Ok k' /\
    shows font WHITE base (type_text (map Z.of_N (take 1024 out ++ tail)) c) (k_screen k').
Proof.
  intros Hd Hr Hb Hb2 Hm Hl Hn Ht Hmem Hs Hc Hst.
  destruct (formatted m0 buf (k_mem k) ds args out args' Hd Hr Hb Hb2 Hm) as (m' & e & E & R & W).
  rewrite take_app_le in W by exact Hl. assert (L : length (take 1024 out) = 1024%nat) by (rewrite take_length; lia).
  assert (V : view_of m' buf = Ok (take 1024 out ++ tail)).
  { assert (B : forall i d, (tail ++ [0%N]) !! i = Some d -> m' !! (buf + N.of_nat (1024 + i))%N = Some d).
    { intros i d Hi. rewrite W, L. replace ((buf <=? buf + N.of_nat (1024 + i))%N && (buf + N.of_nat (1024 + i) <? buf + N.of_nat 1024)%N) with false by lia.
      replace (buf + N.of_nat (1024 + i))%N with (buf + 1024 + N.of_nat i)%N by lia. apply Hmem, Hi. }
    apply view_of_list.
    - rewrite app_length, L. apply B. rewrite lookup_app_r, Nat.sub_diag by lia. reflexivity.
    - apply Forall_app. split; assumption.
    - intros i d Hi. apply lookup_app_Some in Hi as [Hi|[Hi1 Hi2]].
      + apply (written_at _ _ _ _ _ _ W Hi).
      + rewrite L in Hi1, Hi2. replace i with (1024 + (i - 1024))%nat by lia. apply B. apply lookup_app_l_Some, Hi2. }
  unfold printf. rewrite E, V. cbn [obind]. pose proof Hs as (Sx & Sy & _). destruct Hc as (Cx & Cy & _).
  destruct (text_shows font WHITE base (map Z.of_N (take 1024 out ++ tail)) c _ Hs ltac:(rewrite Sx; exact Cx) ltac:(rewrite Sy; exact Cy) Hst) as (s' & E' & S' & _).
  rewrite E'. cbn [obind]. eexists. split; [reflexivity|]. exact S'.
Qed.
