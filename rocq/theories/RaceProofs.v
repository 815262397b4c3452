From stdpp Require Import list list_numbers relations.
From Coq Require Import ZArith Lia ZifyBool ZifyNat.
From Verif Require Import Base ThreadsModel ThreadsSpec ThreadsProofs RaceModel RaceSpec.
Local Open Scope nat_scope.

Lemma direct_app os tr tr' a b : direct os tr a b -> direct os (tr ++ tr') a b.
Proof. intros (x&y&Hx&Hy&L&E). exists x, y. split; [by apply lookup_app_l_Some|]. split; [by apply lookup_app_l_Some|done]. Qed.
Lemma before_app os tr tr' a b : before os tr a b -> before os (tr ++ tr') a b.
Proof. intros H. induction H as [a b H|a b c H _ IH]; [by apply tc_once, direct_app|]. eapply tc_l; [by apply direct_app|exact IH]. Qed.

(** The event [e] is before whatever thread [t] does next; or before the next acquiring change of counter [c]. *)
Definition seen os tr (t e : nat) : Prop :=
  exists f x, tr !! f = Some x /\ (who x = t \/ what x = Hand t) /\ (e = f \/ before os tr e f).
Definition freed os tr (c : counter) (e : nat) : Prop :=
  exists f x u, tr !! f = Some x /\ what x = Rmw c u /\ releases (rmw_order os c u) = true /\ (e = f \/ before os tr e f).

Lemma last_lookup {A} (tr : list A) y : (tr ++ [y]) !! length tr = Some y.
Proof. by rewrite lookup_app_r, Nat.sub_diag by lia. Qed.
Lemma close os tr e f g : e = f \/ before os tr e f -> direct os tr f g -> before os tr e g.
Proof. intros [->|H] D; [by apply tc_once|]. eapply tc_r; [exact H|exact D]. Qed.
Lemma next_seen os tr t e y : seen os tr t e -> who y = t -> before os (tr ++ [y]) e (length tr).
Proof.
  intros (f&x&Hx&Hw&He) Hy. eapply close.
  - destruct He as [->|He]; [by left|right; by apply before_app].
  - exists x, y. split; [by apply lookup_app_l_Some|]. split; [apply last_lookup|]. split; [by eapply lookup_lt_Some|].
    unfold edge. destruct Hw as [Hw|Hw]; [by rewrite Hw, Hy, Nat.eqb_refl|]. rewrite Hw, Hy, Nat.eqb_refl. by rewrite orb_true_r.
Qed.
Lemma same_refl c : same c c = true. Proof. by destruct c. Qed.
Lemma next_freed os tr c e y u : freed os tr c e -> what y = Rmw c u -> acquires (rmw_order os c u) = true ->
  before os (tr ++ [y]) e (length tr).
Proof.
  intros (f&x&v&Hx&Hw&R&He) Hy A. eapply close.
  - destruct He as [->|He]; [by left|right; by apply before_app].
  - exists x, y. split; [by apply lookup_app_l_Some|]. split; [apply last_lookup|]. split; [by eapply lookup_lt_Some|].
    unfold edge. rewrite Hw, Hy, same_refl, R, A. by rewrite orb_true_r.
Qed.
Lemma seen_app os tr t e y : seen os tr t e -> seen os (tr ++ [y]) t e.
Proof.
  intros (f&x&Hx&Hw&He). exists f, x. split; [by apply lookup_app_l_Some|]. split; [done|].
  destruct He as [->|He]; [by left|right; by apply before_app].
Qed.
Lemma freed_app os tr c e y : freed os tr c e -> freed os (tr ++ [y]) c e.
Proof.
  intros (f&x&u&Hx&Hw&R&He). exists f, x, u. split; [by apply lookup_app_l_Some|]. split; [done|]. split; [done|].
  destruct He as [->|He]; [by left|right; by apply before_app].
Qed.
Lemma seen_new os tr y : seen os (tr ++ [y]) (who y) (length tr).
Proof. exists (length tr), y. split; [apply last_lookup|]. split; by left. Qed.
Lemma seen_of os tr t e y : before os (tr ++ [y]) e (length tr) -> who y = t \/ what y = Hand t -> seen os (tr ++ [y]) t e.
Proof. intros H Hw. exists (length tr), y. split; [apply last_lookup|]. split; [done|by right]. Qed.
Lemma freed_of os tr c e y u : e = length tr \/ before os (tr ++ [y]) e (length tr) -> what y = Rmw c u ->
  releases (rmw_order os c u) = true -> freed os (tr ++ [y]) c e.
Proof. intros H Hw R. exists (length tr), y, u. split; [apply last_lookup|done]. Qed.

(** Some thread with [p] has [e] behind it. *)
Definition by_ os tr (ths : list thread) (p : thread -> bool) (e : nat) : Prop :=
  exists i t, ths !! i = Some t /\ p t = true /\ seen os tr i e.
Definition has_s (t : thread) : bool := 0 <? shn t.
Definition has_w (t : thread) : bool := 0 <? wkn t.
Definition ends (t : thread) : bool := match at_ t with Dispose | WeakRel => true | _ => false end.
Definition any_handle (t : thread) : bool := (0 <? shn t + wkn t) || match at_ t with Idle => false | _ => true end.
Definition cov_s os tr ths e : Prop := freed os tr Shared e \/ by_ os tr ths has_s e.

Record safe os (tr : list event) (w : world) : Prop := {
  f_make : exists z, tr !! 0 = Some (Ev 0 Make z);
  f_one a x : tr !! a = Some x -> what x = Make -> a = 0;
  f_first i t : threads w !! i = Some t -> any_handle t = true -> seen os tr i 0;
  f_obj a x : tr !! a = Some x -> on_object (what x) = true -> 0 < tot shn w -> cov_s os tr (threads w) a;
  f_disp a x i t : tr !! a = Some x -> on_object (what x) = true -> threads w !! i = Some t -> at_ t = Dispose -> seen os tr i a;
  f_blk a x : tr !! a = Some x -> on_block (what x) = true -> there w = true -> tot (ind isF) w = 0 ->
    freed os tr Weak a \/ by_ os tr (threads w) has_w a \/ (0 < tot shn w /\ cov_s os tr (threads w) a) \/ by_ os tr (threads w) ends a;
  f_free a x i t : tr !! a = Some x -> on_block (what x) = true -> threads w !! i = Some t -> at_ t = Free -> seen os tr i a;
  f_dead a x : tr !! a = Some x -> what x = Destroy -> alive w = false;
  f_gone a x : tr !! a = Some x -> what x = FreeBlock -> there w = false;
  f_race : race_free os tr }.

(** What a step does to the threads that hold something. *)
Lemma by_step os tr ths ths' (p : thread -> bool) y e :
  (forall k u, ths !! k = Some u -> p u = true ->
     (exists u', ths' !! k = Some u' /\ p u' = true) \/
     (k = who y /\ exists j u', what y = Hand j /\ ths' !! j = Some u' /\ p u' = true)) ->
  by_ os tr ths p e -> by_ os (tr ++ [y]) ths' p e.
Proof.
  intros H (k&u&Hk&Pu&Se). destruct (H k u Hk Pu) as [(u'&Hu'&Pu')|(->&j&u'&Hy&Hu'&Pu')].
  - exists k, u'. split; [done|]. split; [done|by apply seen_app].
  - exists j, u'. split; [done|]. split; [done|]. eapply seen_of; [|by right]. by eapply next_seen.
Qed.
Lemma by_step_or os tr ths ths' (p : thread -> bool) y c u0 e :
  what y = Rmw c u0 -> releases (rmw_order os c u0) = true ->
  (forall k u, ths !! k = Some u -> p u = true -> k = who y \/ exists u', ths' !! k = Some u' /\ p u' = true) ->
  by_ os tr ths p e -> freed os (tr ++ [y]) c e \/ by_ os (tr ++ [y]) ths' p e.
Proof.
  intros Hy R H (k&u&Hk&Pu&Se). destruct (H k u Hk Pu) as [->|(u'&Hu'&Pu')].
  - left. eapply freed_of; [|exact Hy|exact R]. right. by eapply next_seen.
  - right. exists k, u'. split; [done|]. split; [done|by apply seen_app].
Qed.
Lemma insert_keep (ths : list thread) i t t' (p : thread -> bool) k u :
  ths !! i = Some t -> (p t = true -> p t' = true) -> ths !! k = Some u -> p u = true ->
  exists u', <[i := t']> ths !! k = Some u' /\ p u' = true.
Proof.
  intros Hi Hp Hk Hu. destruct (decide (i = k)) as [->|D].
  - exists t'. rewrite list_lookup_insert by (by eapply lookup_lt_Some). simplify_eq. auto.
  - exists u. by rewrite list_lookup_insert_ne.
Qed.
Lemma insert_other (ths : list thread) i t' (p : thread -> bool) k u :
  ths !! k = Some u -> p u = true -> k = i \/ exists u', <[i := t']> ths !! k = Some u' /\ p u' = true.
Proof. intros Hk Hu. destruct (decide (i = k)) as [->|D]; [by left|]. right. exists u. by rewrite list_lookup_insert_ne. Qed.

(** the last one: nobody else holds one *)
Lemma only (f : thread -> nat) (ths : list thread) i k t u :
  ths !! i = Some t -> ths !! k = Some u -> sum_list_with f ths <= f t -> 0 < f u -> k = i.
Proof.
  intros Hi Hk Hs Hu. destruct (decide (i = k)) as [->|D]; [done|]. pose proof (sum_two f ths i k t u D Hi Hk). lia.
Qed.
Lemma snoc_inv {A} (tr : list A) y a x : (tr ++ [y]) !! a = Some x -> tr !! a = Some x \/ (a = length tr /\ x = y).
Proof.
  intros H. apply lookup_app_Some in H as [H|[L H]]; [by left|]. right.
  destruct (a - length tr) as [|k] eqn:E; cbn in H; [simplify_eq; split; [lia|done]|by destruct k].
Qed.
(** races of a longer trace *)
Lemma race_app os tr y : race_free os tr -> (exists z, tr !! 0 = Some (Ev 0 Make z)) -> what y <> Make ->
  (on_object (what y) || on_block (what y) = true -> before os (tr ++ [y]) 0 (length tr)) ->
  (forall a x, tr !! a = Some x -> what x = Make -> a = 0) ->
  (forall a x, tr !! a = Some x -> what x = Destroy -> on_object (what y) = false) ->
  (forall a x, tr !! a = Some x -> what x = FreeBlock -> on_block (what y) = false) ->
  (forall a x, tr !! a = Some x -> what y = Destroy -> on_object (what x) = true -> before os (tr ++ [y]) a (length tr)) ->
  (forall a x, tr !! a = Some x -> what y = FreeBlock -> on_block (what x) = true -> before os (tr ++ [y]) a (length tr)) ->
  race_free os (tr ++ [y]).
Proof.
  intros R (z&H0) Ny Hm One HD HF D F a b xa xb Ne Ha Hb.
  apply snoc_inv in Ha as [Ha|[-> ->]]; apply snoc_inv in Hb as [Hb|[-> ->]]; [|..|done].
  - destruct (R a b xa xb Ne Ha Hb) as (X&Y&Z). split; [|split]; intros ? ?; apply before_app; auto.
  - split; [|split]; intros P Q.
    + rewrite (One a xa Ha P) in *. by apply Hm.
    + by eapply D.
    + by eapply F.
  - split; [|split]; intros P Q; [done| |].
    + rewrite (HD b xb Hb P) in Q. done.
    + rewrite (HF b xb Hb P) in Q. done.
Qed.

Definition good (os : orders) : Prop :=
  acquires (dec_s os) = true /\ releases (dec_s os) = true /\ acquires (dec_w os) = true /\ releases (dec_w os) = true.

(** A step of thread [i] that replaces its own record only. *)
Lemma safe_own os tr w w' i t t' y :
  safe os tr w -> threads w !! i = Some t -> threads w' = <[i := t']> (threads w) -> who y = i -> what y <> Make ->
  any_handle t = true ->
  (alive w' = true -> alive w = true) -> (there w' = true -> there w = true) ->
  (on_object (what y) = true -> alive w = true) -> (on_block (what y) = true -> there w = true) ->
  (what y = Destroy -> at_ t = Dispose /\ alive w' = false) -> (what y = FreeBlock -> at_ t = Free /\ there w' = false) ->
  (forall a x, (tr ++ [y]) !! a = Some x -> on_object (what x) = true -> 0 < tot shn w' -> cov_s os (tr ++ [y]) (threads w') a) ->
  (at_ t' = Dispose -> forall a x, (tr ++ [y]) !! a = Some x -> on_object (what x) = true -> seen os (tr ++ [y]) i a) ->
  (forall j u, j <> i -> threads w !! j = Some u -> at_ u = Dispose -> on_object (what y) = false) ->
  (forall a x, (tr ++ [y]) !! a = Some x -> on_block (what x) = true -> there w' = true -> tot (ind isF) w' = 0 ->
    freed os (tr ++ [y]) Weak a \/ by_ os (tr ++ [y]) (threads w') has_w a \/
    (0 < tot shn w' /\ cov_s os (tr ++ [y]) (threads w') a) \/ by_ os (tr ++ [y]) (threads w') ends a) ->
  (at_ t' = Free -> forall a x, (tr ++ [y]) !! a = Some x -> on_block (what x) = true -> seen os (tr ++ [y]) i a) ->
  (forall j u, j <> i -> threads w !! j = Some u -> at_ u = Free -> on_block (what y) = false) ->
  safe os (tr ++ [y]) w'.
Proof.
  intros S Ht E Hy NM AH Al Th Oy By Dy Fy Obj Disp DispO Blk Fr FrO.
  destruct S as [(z&H0) One First _ FDisp _ FFree Dead Gone Race].
  pose proof (First i t Ht AH) as S0.
  assert (before os (tr ++ [y]) 0 (length tr)) as B0 by (by eapply next_seen).
  split.
  - exists z. by apply lookup_app_l_Some.
  - intros a x Ha Hm. apply snoc_inv in Ha as [Ha|[-> ->]]; [by eapply One|done].
  - intros j u Hj Hu. rewrite E in Hj. destruct (decide (i = j)) as [<-|D].
    + eapply seen_app. exact S0.
    + rewrite list_lookup_insert_ne in Hj by done. eapply seen_app, First; [exact Hj|done].
  - exact Obj.
  - intros a x j u Ha Hx Hj Hu. rewrite E in Hj. destruct (decide (i = j)) as [<-|D].
    + rewrite list_lookup_insert in Hj by (by eapply lookup_lt_Some). simplify_eq. by eapply Disp.
    + rewrite list_lookup_insert_ne in Hj by done. apply snoc_inv in Ha as [Ha|[-> ->]].
      * eapply seen_app, FDisp; [exact Ha|done|exact Hj|done].
      * rewrite (DispO j u) in Hx by done. done.
  - exact Blk.
  - intros a x j u Ha Hx Hj Hu. rewrite E in Hj. destruct (decide (i = j)) as [<-|D].
    + rewrite list_lookup_insert in Hj by (by eapply lookup_lt_Some). simplify_eq. by eapply Fr.
    + rewrite list_lookup_insert_ne in Hj by done. apply snoc_inv in Ha as [Ha|[-> ->]].
      * eapply seen_app, FFree; [exact Ha|done|exact Hj|done].
      * rewrite (FrO j u) in Hx by done. done.
  - intros a x Ha Hx. apply snoc_inv in Ha as [Ha|[-> ->]]; [|by apply Dy].
    specialize (Dead a x Ha Hx). destruct (alive w') eqn:A; [|done]. rewrite Al in Dead; done.
  - intros a x Ha Hx. apply snoc_inv in Ha as [Ha|[-> ->]]; [|by apply Fy].
    specialize (Gone a x Ha Hx). destruct (there w') eqn:A; [|done]. rewrite Th in Gone; done.
  - apply race_app; [exact Race|by exists z|exact NM|intros _; exact B0|exact One|..].
    + intros a x Ha Hx. specialize (Dead a x Ha Hx). destruct (on_object (what y)); [|done]. rewrite Oy in Dead; done.
    + intros a x Ha Hx. specialize (Gone a x Ha Hx). destruct (on_block (what y)); [|done]. rewrite By in Gone; done.
    + intros a x Ha Hd Ho. destruct (Dy Hd) as [Hp _]. eapply next_seen; [|exact Hy]. eapply FDisp; [exact Ha|done|exact Ht|done].
    + intros a x Ha Hd Ho. destruct (Fy Hd) as [Hp _]. eapply next_seen; [|exact Hy]. eapply FFree; [exact Ha|done|exact Ht|done].
Qed.
(** Handing a handle over. *)
Lemma safe_hand os tr w w' i j t t' u u' y :
  safe os tr w -> threads w !! i = Some t -> threads w !! j = Some u -> i <> j -> threads w' = <[j := u']> (<[i := t']> (threads w)) ->
  who y = i -> what y = Hand j -> any_handle t = true ->
  alive w' = alive w -> there w' = there w -> tot shn w' = tot shn w -> tot (ind isF) w' = tot (ind isF) w ->
  at_ t = Idle -> at_ t' = Idle -> at_ u = Idle -> at_ u' = Idle ->
  (has_s u = true \/ shn t' <> shn t -> has_s u' = true) -> (has_w u = true \/ wkn t' <> wkn t -> has_w u' = true) ->
  safe os (tr ++ [y]) w'.
Proof.
  intros S Ht Hu Dij E Hy HH AH Al Th TS TF It It' Iu Iu' Hs Hw.
  destruct S as [(z&H0) One First Obj FDisp Blk FFree Dead Gone Race].
  pose proof (First i t Ht AH) as S0.
  assert (before os (tr ++ [y]) 0 (length tr)) as B0 by (by eapply next_seen).
  assert (forall k v, threads w' !! k = Some v -> (k = j /\ v = u') \/ (k <> j /\ k = i /\ v = t') \/ (k <> j /\ k <> i /\ threads w !! k = Some v)) as Look.
  { intros k v Hk. rewrite E in Hk. destruct (decide (k = j)) as [->|D1].
    - rewrite list_lookup_insert in Hk by (rewrite insert_length; by eapply lookup_lt_Some). simplify_eq. by left.
    - rewrite list_lookup_insert_ne in Hk by done. destruct (decide (k = i)) as [->|D2].
      + rewrite list_lookup_insert in Hk by (by eapply lookup_lt_Some). simplify_eq. right. by left.
      + rewrite list_lookup_insert_ne in Hk by done. right. right. done. }
  assert (threads w' !! j = Some u') as Lj by (rewrite E, list_lookup_insert by (rewrite insert_length; by eapply lookup_lt_Some); done).
  assert (threads w' !! i = Some t') as Li by (rewrite E, list_lookup_insert_ne, list_lookup_insert by (done || by eapply lookup_lt_Some); done).
  assert (forall k v, k <> i -> k <> j -> threads w !! k = Some v -> threads w' !! k = Some v) as Lo
    by (intros; rewrite E, !list_lookup_insert_ne by done; done).
  assert (forall a, by_ os tr (threads w) has_s a -> by_ os (tr ++ [y]) (threads w') has_s a) as MS.
  { intros a. apply by_step. intros k v Hk Pv. destruct (decide (k = j)) as [->|D1].
    - left. exists u'. split; [done|]. simplify_eq. auto.
    - destruct (decide (k = i)) as [->|D2]; [|left; exists v; auto].
      destruct (decide (shn t' = shn t)) as [Q|Q].
      + left. exists t'. split; [done|]. simplify_eq. unfold has_s in *. by rewrite Q.
      + right. split; [done|]. exists j, u'. auto. }
  assert (forall a, by_ os tr (threads w) has_w a -> by_ os (tr ++ [y]) (threads w') has_w a) as MW.
  { intros a. apply by_step. intros k v Hk Pv. destruct (decide (k = j)) as [->|D1].
    - left. exists u'. split; [done|]. simplify_eq. auto.
    - destruct (decide (k = i)) as [->|D2]; [|left; exists v; auto].
      destruct (decide (wkn t' = wkn t)) as [Q|Q].
      + left. exists t'. split; [done|]. simplify_eq. unfold has_w in *. by rewrite Q.
      + right. split; [done|]. exists j, u'. auto. }
  assert (forall a x, (tr ++ [y]) !! a = Some x -> on_object (what x) = true \/ on_block (what x) = true -> tr !! a = Some x) as Old.
  { intros a x Ha Hx. apply snoc_inv in Ha as [Ha|[-> ->]]; [done|]. rewrite HH in Hx. by destruct Hx. }
  split.
  - exists z. by apply lookup_app_l_Some.
  - intros a x Ha Hm. apply snoc_inv in Ha as [Ha|[-> ->]]; [by eapply One|]. by rewrite HH in Hm.
  - intros k v Hk Pv. destruct (Look k v Hk) as [(->&->)|[(_&->&->)|(_&_&Hk')]].
    + eapply seen_of; [exact B0|by right].
    + by eapply seen_app.
    + eapply seen_app, First; [exact Hk'|done].
  - intros a x Ha Hx L. rewrite TS in L. apply Old in Ha; [|by left]. destruct (Obj a x Ha Hx L) as [O|O]; [left; by apply freed_app|right; auto].
  - intros a x k v Ha Hx Hk Hv. apply Old in Ha; [|by left]. destruct (Look k v Hk) as [(->&->)|[(_&->&->)|(_&_&Hk')]]; [congruence..|].
    eapply seen_app, FDisp; [exact Ha|done|exact Hk'|done].
  - intros a x Ha Hx T F. rewrite Th in T. rewrite TF in F. rewrite TS. apply Old in Ha; [|by right].
    destruct (Blk a x Ha Hx T F) as [O|[O|[[L [O|O]]|(k&v&Hk&Pv&O)]]].
    + left. by apply freed_app.
    + right. left. auto.
    + right. right. left. split; [done|]. left. by apply freed_app.
    + right. right. left. split; [done|]. right. auto.
    + right. right. right. destruct (decide (k = i)) as [->|D1]; [simplify_eq; unfold ends in Pv; by rewrite It in Pv|].
      destruct (decide (k = j)) as [->|D2].
      * simplify_eq. unfold ends in Pv. by rewrite Iu in Pv.
      * exists k, v. split; [auto|]. split; [done|by apply seen_app].
  - intros a x k v Ha Hx Hk Hv. apply Old in Ha; [|by right]. destruct (Look k v Hk) as [(->&->)|[(_&->&->)|(_&_&Hk')]]; [congruence..|].
    eapply seen_app, FFree; [exact Ha|done|exact Hk'|done].
  - intros a x Ha Hx. apply Old in Ha; [|rewrite Hx; by left]. rewrite Al. by eapply Dead.
  - intros a x Ha Hx. apply Old in Ha; [|rewrite Hx; by right]. rewrite Th. by eapply Gone.
  - apply race_app; rewrite ?HH; eauto; try done.
Qed.

Lemma old_obj os tr w y a x : safe os tr w -> on_object (what y) = false ->
  (tr ++ [y]) !! a = Some x -> on_object (what x) = true -> tr !! a = Some x.
Proof. intros _ N Ha Hx. apply snoc_inv in Ha as [Ha|[-> ->]]; [done|congruence]. Qed.
(** Who covers [a] after a step by [i] that keeps what it holds. *)
Lemma keep_cov os tr ths i t t' y a : ths !! i = Some t -> (has_s t = true -> has_s t' = true) ->
  cov_s os tr ths a -> cov_s os (tr ++ [y]) (<[i := t']> ths) a.
Proof.
  intros Ht K [F|B]; [left; by apply freed_app|right]. eapply by_step; [|exact B]. intros k u Hk Pu. left. by eapply insert_keep.
Qed.
Lemma keep_by os tr ths i t t' y (p : thread -> bool) a : ths !! i = Some t -> (p t = true -> p t' = true) ->
  by_ os tr ths p a -> by_ os (tr ++ [y]) (<[i := t']> ths) p a.
Proof. intros Ht K B. eapply by_step; [|exact B]. intros k u Hk Pu. left. by eapply insert_keep. Qed.
Lemma new_by os tr (ths : list thread) i t t' y (p : thread -> bool) : ths !! i = Some t -> who y = i -> p t' = true ->
  by_ os (tr ++ [y]) (<[i := t']> ths) p (length tr).
Proof.
  intros Ht Hy Hp. exists i, t'. rewrite list_lookup_insert by (by eapply lookup_lt_Some). split; [done|]. split; [done|].
  rewrite <- Hy. apply seen_new.
Qed.
Definition covered os tr (w : world) a : Prop :=
  freed os tr Weak a \/ by_ os tr (threads w) has_w a \/ (0 < tot shn w /\ cov_s os tr (threads w) a) \/ by_ os tr (threads w) ends a.

(** A step by [i] that only gains handles. *)
Lemma safe_gain os tr w w' i t t' y :
  safe os tr w -> threads w !! i = Some t -> threads w' = <[i := t']> (threads w) -> who y = i -> what y <> Make ->
  ends t = false -> match at_ t' with Idle | Locking _ => True | _ => False end -> 0 < shn t + wkn t -> shn t <= shn t' -> (0 < shn t' -> 0 < tot shn w) -> wkn t <= wkn t' ->
  alive w' = alive w -> there w' = there w -> tot (ind isF) w = 0 -> (0 < tot shn w -> tot (ind isD) w = 0) ->
  match what y with Rmw _ true | Load => there w = true | Use => alive w = true /\ 0 < shn t | _ => False end ->
  safe os (tr ++ [y]) w'.
Proof.
  intros S Ht E Hy NM It It' H Hs Hs' Hw Al Th F0 D0 Ly.
  assert (forall (p : thread -> bool), (p t = true -> p t' = true) -> forall a, by_ os tr (threads w) p a -> by_ os (tr ++ [y]) (threads w') p a) as MB
    by (intros p Hp a; rewrite E; by eapply keep_by).
  assert (has_s t = true -> has_s t' = true) as Ks by (unfold has_s; clear - Hs; lia).
  assert (has_w t = true -> has_w t' = true) as Kw by (unfold has_w; clear - Hw; lia).
  assert (ends t = true -> ends t' = true) as Ke by (by rewrite It).
  pose proof (sum_insert shn _ i t t' Ht) as I1. rewrite <- E in I1. pose proof (sum_le shn _ i t Ht) as I2.
  assert (tot shn w <= tot shn w') as TS by (clear - I1 Hs; lia).
  assert (0 < tot shn w' -> 0 < shn t' \/ 0 < tot shn w) as TS' by (clear - I1 I2; lia).
  assert (forall j u, threads w !! j = Some u -> at_ u <> Free) as NF.
  { intros j u Hj Hu. pose proof (sum_le (ind isF) _ j u Hj) as Q. unfold ind in Q at 1. rewrite Hu in Q. cbn in Q. clear - Q F0. lia. }
  pose proof S as [_ _ _ Obj _ Blk _ _ _ _].
  eapply safe_own; [exact S|exact Ht|exact E|exact Hy|exact NM|..]; try congruence; try (intros O; rewrite O in It'; by destruct It').
  - unfold any_handle. clear - H. lia.
  - intros O. destruct (what y) as [|? []| | | | |]; try done. by destruct Ly.
  - intros O. by destruct (what y) as [|? []| | | | |].
  - intros O. by rewrite O in Ly.
  - intros O. by rewrite O in Ly.
  - intros a x Ha Hx L. apply snoc_inv in Ha as [Ha|[-> ->]].
    + destruct (decide (0 < tot shn w)) as [P|P].
      * rewrite E. eapply keep_cov; [exact Ht|exact Ks|]. by eapply Obj.
      * exfalso. destruct (TS' L) as [Q|Q]; [|done]. clear - P Q Hs'. lia.
    + right. rewrite E. eapply new_by; [exact Ht|exact Hy|]. destruct (what y) as [|? []| | | | |]; try done. destruct Ly as [_ Ly]. unfold has_s. clear - Ly Hs. lia.
  - intros j u _ Hj Hu. pose proof (sum_le (ind isD) _ j u Hj) as Q. unfold ind in Q at 1. rewrite Hu in Q. cbn in Q.
    destruct (what y) as [|? []| | | | |]; try done. destruct Ly as [_ A]. specialize (D0 ltac:(clear - A I2; lia)). clear - D0 Q. lia.
  - intros a x Ha Hx T _. rewrite Th in T. apply snoc_inv in Ha as [Ha|[-> ->]].
    + destruct (Blk a x Ha Hx T F0) as [O|[O|[[L O]|O]]].
      * left. by apply freed_app.
      * right. left. by apply MB.
      * right. right. left. split; [clear - L TS; lia|]. rewrite E. by eapply keep_cov.
      * right. right. right. by apply MB.
    + destruct (decide (0 < wkn t)) as [P|P].
      * right. left. rewrite E. eapply new_by; [exact Ht|exact Hy|]. unfold has_w. clear - P Hw. lia.
      * right. right. left. split; [clear - I2 TS H P; lia|]. right. rewrite E. eapply new_by; [exact Ht|exact Hy|]. unfold has_s. clear - P H Hs. lia.
  - intros j u _ Hj Hu. by destruct (NF j u Hj).
Qed.

(** The totals of a world. *)
Lemma nums k w : inv k w -> (Z.of_nat k + 3 < 2 ^ 64)%Z ->
  (no_lock w = true -> sc w = Z.of_nat (tot shn w)) /\ wc w = Z.of_nat (tot wkn w + ((if 0 <? tot shn w then 1 else 0) + tot (ind isD) w + tot (ind isR) w)) /\
  (if 0 <? tot shn w then 1 else 0) + tot (ind isD) w + tot (ind isR) w <= 1 /\
  alive w = ((0 <? tot shn w) || (0 <? tot (ind isD) w)) /\
  there w = ((0 <? tot wkn w + tot shn w + tot (ind isD) w + tot (ind isR) w) || (0 <? tot (ind isF) w)) /\
  tot (ind isF) w <= 1 /\ (tot (ind isF) w = 1 -> tot wkn w + tot shn w + tot (ind isD) w + tot (ind isR) w = 0) /\
  (Z.of_nat (tot shn w + tot wkn w) <= Z.of_nat k)%Z.
Proof.
  intros [[e N] _] Hk. destruct N as [Nsc Nown Nwc Ne NL1 NeS Nal Nth NF NF0 Nde Nfr Nk].
  split; [intros NL%no_lock_tot; lia|]. repeat split; try done; lia.
Qed.

(** lia without the facts that are not about numbers *)
Ltac slia := repeat match goal with
  | H : acquires _ = true |- _ => clear H | H : releases _ = true |- _ => clear H | H : no_lock _ = true |- _ => clear H
  | H : there _ = true |- _ => clear H | H : alive _ = true |- _ => clear H | H : on_object _ = true |- _ => clear H
  | H : on_block _ = true |- _ => clear H | H : safe _ _ _ |- _ => clear H | H : forall _ : nat, _ |- _ => clear H
  | H : freed _ _ _ _ |- _ => clear H | H : by_ _ _ _ _ _ |- _ => clear H | H : cov_s _ _ _ _ |- _ => clear H
  | H : inv _ _ |- _ => clear H | H : _ !! _ = _ |- _ => clear H
  | H : (_ -> there _ = true) |- _ => clear H | H : (_ -> alive _ = true) |- _ => clear H
  | H : (_ -> _ /\ there _ = true) |- _ => clear H | H : (no_lock _ = true -> _) |- _ => clear H end; lia.
Lemma safe_step os k i a w w' t b tr : good os -> inv k w -> match a with CopyS | DropS => no_lock w | _ => true end = true -> (Z.of_nat k + 3 < 2 ^ 64)%Z ->
  safe os tr w -> threads w !! i = Some t -> label_of a (at_ t) = Some b -> exec i a w = Some (Ok w') ->
  safe os (tr ++ [Ev i b (sc w')]) w'.
Proof.
  intros (A1&R1&A2&R2) I NL Hk Sf Ht Hb X.
  destruct (nums k w I Hk) as (Nsc&Nwc&Nown&Nal&Nth&NF&NF0&Nk).
  pose proof (sum_le shn _ i t Ht) as Ls. pose proof (sum_le wkn _ i t Ht) as Lw.
  pose proof Sf as [_ _ First Obj FDisp Blk FFree _ _ _].
  unfold exec in X. rewrite Ht in X. cbn [mbind option_bind] in X. unfold touch in X.
  assert (0 < tot shn w \/ 0 < tot (ind isD) w -> alive w = true) as LA by (clear - Nal; intros; rewrite Nal; slia).
  assert (0 < tot wkn w + tot shn w + tot (ind isD) w + tot (ind isR) w \/ 0 < tot (ind isF) w -> there w = true) as LT
    by (clear - Nth; intros; rewrite Nth; slia).
  clear Nal Nth.
  assert (exists q, (if 0 <? tot shn w then 1 else 0) = q /\ (tot shn w = 0 /\ q = 0 \/ 0 < tot shn w /\ q = 1)) as (q&Eq&Hq)
    by (eexists; split; [reflexivity|]; clear; destruct (Nat.ltb_spec 0 (tot shn w)); slia).
  rewrite Eq in Nwc, Nown. clear Eq.
  assert (0 < tot wkn w + tot shn w -> tot (ind isF) w = 0 /\ there w = true) as Liv
    by (intros; split; [clear - NF NF0 H; slia|apply LT; left; clear - H; slia]).
  assert (0 < tot shn w -> tot (ind isD) w = 0) as D0 by (intros L; clear - L Hq Nown; slia).
  assert (0 < tot shn w + tot wkn w -> forall j u, threads w !! j = Some u -> at_ u <> Free) as NoFree.
  { intros L j u Hj Hu. pose proof (sum_le (ind isF) _ j u Hj) as Q. unfold ind in Q at 1. rewrite Hu in Q. cbn in Q. clear - Q L NF NF0. slia. }
  destruct t as [sh wk p]. cbn [shn wkn at_] in *.
  destruct a; destruct p eqn:Ep; try discriminate X; cbn in Hb; try discriminate Hb; injection Hb as <-; subst p.
  - (* CopyS *)
    destruct (Nat.ltb_spec 0 sh); [|discriminate X]. destruct (Liv ltac:(slia)) as [F T]. rewrite T in X. injection X as <-.
    eapply safe_gain; [exact Sf|exact Ht|reflexivity|reflexivity|..]; cbn; done || slia.
  - (* CopyWS *)
    destruct (Nat.ltb_spec 0 sh); [|discriminate X]. destruct (Liv ltac:(slia)) as [F T]. rewrite T in X. injection X as <-.
    eapply safe_gain; [exact Sf|exact Ht|reflexivity|reflexivity|..]; cbn; done || slia.
  - (* CopyW *)
    destruct (Nat.ltb_spec 0 wk); [|discriminate X]. destruct (Liv ltac:(slia)) as [F T]. rewrite T in X. injection X as <-.
    eapply safe_gain; [exact Sf|exact Ht|reflexivity|reflexivity|..]; cbn; done || slia.
  - (* DropS *)
    destruct sh as [|sh]; [discriminate X|]. destruct (Liv ltac:(slia)) as [F T]. rewrite T in X. injection X as <-.
    specialize (Nsc NL). specialize (NoFree ltac:(slia)). rewrite wrap_id by slia.
    destruct (Z.eqb_spec (sc w - 1) 0) as [Z1|Z1].
    + assert (tot shn w = 1) as S1 by slia. assert (sh = 0) as -> by slia.
      pose proof (sum_insert shn _ i _ {| shn := 0; wkn := wk; at_ := Dispose |} Ht) as S2. cbn [shn] in S2.
      assert (forall a, cov_s os tr (threads w) a -> seen os (tr ++ [Ev i (Rmw Shared false) (sc w - 1)]) i a) as Get.
      { intros a [G|(k0&u&Hk0&Pu&G)].
        - eapply seen_of; [|by left]. by eapply next_freed.
        - assert (k0 = i) as -> by (eapply (only shn); [exact Ht|exact Hk0|cbn; slia|unfold has_s in Pu; slia]). by apply seen_app. }
      eapply safe_own; [exact Sf|exact Ht|reflexivity|reflexivity|..]; cbn [what on_object on_block alive there upd threads sc at_]; try done.
      * slia.
      * intros _ a x Ha Hx. apply snoc_inv in Ha as [Ha|[-> ->]]; [|done]. eapply Get, Obj; [exact Ha|done|slia].
      * intros a x Ha Hx _ _. apply snoc_inv in Ha as [Ha|[-> ->]].
        -- destruct (Blk a x Ha Hx T F) as [O|[O|[[L O]|O]]].
           ++ left. by apply freed_app.
           ++ right. left. by eapply keep_by.
           ++ right. right. right. exists i. eexists. rewrite list_lookup_insert by (by eapply lookup_lt_Some). split; [done|].
              split; [done|]. by apply Get.
           ++ right. right. right. by eapply keep_by.
        -- right. right. right. by eapply new_by.
      * intros j u _ Hj Hu. by destruct (NoFree j u Hj).
    + pose proof (sum_insert shn _ i _ {| shn := sh; wkn := wk; at_ := Idle |} Ht) as S2. cbn [shn] in S2.
      assert (forall a, cov_s os tr (threads w) a ->
        cov_s os (tr ++ [Ev i (Rmw Shared false) (sc w - 1)]) (<[i := {| shn := sh; wkn := wk; at_ := Idle |}]> (threads w)) a) as Get.
      { intros a [G|G]; [left; by apply freed_app|]. eapply by_step_or; [reflexivity|exact R1| |exact G]. intros k0 u0 Hk0 Hu0. exact (insert_other _ _ _ _ k0 u0 Hk0 Hu0). }
      eapply safe_own; [exact Sf|exact Ht|reflexivity|reflexivity|..]; cbn [what on_object on_block alive there upd threads sc at_]; try done.
      * intros a x Ha Hx L. apply snoc_inv in Ha as [Ha|[-> ->]]; [|done]. eapply Get, Obj; [exact Ha|done|slia].
      * intros a x Ha Hx _ _. apply snoc_inv in Ha as [Ha|[-> ->]].
        -- destruct (Blk a x Ha Hx T F) as [O|[O|[[L O]|O]]].
           ++ left. by apply freed_app.
           ++ right. left. by eapply keep_by.
           ++ right. right. left. split; [slia|]. by apply Get.
           ++ right. right. right. by eapply keep_by.
        -- right. right. left. split; [slia|]. left. eapply freed_of; [by left|reflexivity|exact R1].
      * intros j u _ Hj Hu. by destruct (NoFree j u Hj).
  - (* DropW *)
    destruct wk as [|wk]; [discriminate X|]. destruct (Liv ltac:(slia)) as [F T]. rewrite T in X. injection X as <-.
    specialize (NoFree ltac:(slia)). rewrite wrap_id by slia.
    destruct (Z.eqb_spec (wc w - 1) 0) as [Z1|Z1].
    + assert (tot wkn w = 1 /\ tot shn w = 0 /\ tot (ind isD) w = 0 /\ tot (ind isR) w = 0) as (W1&S1&D1&Q1)
        by slia.
      assert (wk = 0 /\ sh = 0) as [-> ->] by slia.
      totals (threads w) i {| shn := 0; wkn := 1; at_ := Idle |} {| shn := 0; wkn := 0; at_ := Free |} Ht. ev.
      eapply safe_own; [exact Sf|exact Ht|reflexivity|reflexivity|..]; cbn [what on_object on_block alive there upd threads sc at_]; try done.
      * slia.
      * intros a x Ha Hx _ Q. change (fun t : thread => if isF (at_ t) then 1 else 0) with (ind isF) in *. exfalso. slia.
      * intros _ a x Ha Hx. apply snoc_inv in Ha as [Ha|[-> ->]]; [|apply (seen_new os tr (Ev i (Rmw Weak false) (sc w)))].
        destruct (Blk a x Ha Hx T F) as [O|[(k0&u&Hk0&Pu&O)|[[L O]|(k0&u&Hk0&Pu&O)]]].
        -- eapply seen_of; [|by left]. by eapply next_freed.
        -- assert (k0 = i) as -> by (eapply (only wkn); [exact Ht|exact Hk0|cbn; slia|unfold has_w in Pu; slia]). by apply seen_app.
        -- exfalso. change (fun t : thread => shn t) with shn in *. slia.
        -- exfalso. pose proof (sum_le (ind isD) _ k0 u Hk0) as Q1'. pose proof (sum_le (ind isR) _ k0 u Hk0) as Q2'.
           unfold ends in Pu. unfold ind in Q1' at 1, Q2' at 1. destruct (at_ u); try done; cbn in *; unfold ind in *; slia.
      * intros j u _ Hj Hu. by destruct (NoFree j u Hj).
    + totals (threads w) i {| shn := sh; wkn := S wk; at_ := Idle |} {| shn := sh; wkn := wk; at_ := Idle |} Ht. cbn [shn] in *.
      eapply safe_own; [exact Sf|exact Ht|reflexivity|reflexivity|..]; cbn [what on_object on_block alive there upd threads sc at_]; try done.
      * unfold any_handle. cbn [shn wkn at_]. slia.
      * intros a x Ha Hx L. apply snoc_inv in Ha as [Ha|[-> ->]]; [|done]. eapply keep_cov; [exact Ht|done|]. eapply Obj; [exact Ha|done|slia].
      * intros a x Ha Hx _ _. apply snoc_inv in Ha as [Ha|[-> ->]].
        -- destruct (Blk a x Ha Hx T F) as [O|[O|[[L O]|O]]].
           ++ left. by apply freed_app.
           ++ eapply (by_step_or os tr _ _ has_w (Ev i (Rmw Weak false) (sc w))) in O as [O|O]; [by left|right; left; exact O|reflexivity|exact R2|].
              intros k0 u0 Hk0 Hu0. exact (insert_other _ _ _ _ k0 u0 Hk0 Hu0).
           ++ right. right. left. split; [slia|]. by eapply keep_cov.
           ++ right. right. right. by eapply keep_by.
        -- left. eapply freed_of; [by left|reflexivity|exact R2].
      * intros j u _ Hj Hu. by destruct (NoFree j u Hj).
  - (* Deref *)
    destruct (Nat.ltb_spec 0 sh); [|discriminate X]. destruct (Liv ltac:(slia)) as [F T].
    assert (alive w = true) as A by (apply LA; slia). rewrite A in X. injection X as <-.
    eapply (safe_gain os tr w w i _ {| shn := sh; wkn := wk; at_ := Idle |}); [exact Sf|exact Ht|by rewrite list_insert_id|reflexivity|..]; cbn; done || slia.
  - (* Count *)
    destruct (Nat.ltb_spec 0 (sh + wk)); [|discriminate X]. destruct (Liv ltac:(slia)) as [F T]. rewrite T in X. injection X as <-.
    eapply (safe_gain os tr w w i _ {| shn := sh; wkn := wk; at_ := Idle |}); [exact Sf|exact Ht|by rewrite list_insert_id|reflexivity|..]; cbn; done || slia.
  - (* GiveS *)
    destruct sh as [|sh]; [discriminate X|]. destruct (decide (i = j)) as [|D]; [discriminate X|].
    destruct (threads w !! j) as [[sh' wk' p']|] eqn:Hj; [|discriminate X]. cbn [mbind option_bind at_ shn wkn] in X.
    destruct p'; try discriminate X. injection X as <-.
    assert (<[i := {| shn := sh; wkn := wk; at_ := Idle |}]> (threads w) !! j = Some {| shn := sh'; wkn := wk'; at_ := Idle |}) as Hj'
      by (by rewrite list_lookup_insert_ne).
    eapply safe_hand; [exact Sf|exact Ht|exact Hj|exact D|reflexivity|reflexivity|reflexivity|..]; try done.
    + cbn [threads upd]. totals (threads w) i {| shn := S sh; wkn := wk; at_ := Idle |} {| shn := sh; wkn := wk; at_ := Idle |} Ht.
      pose proof (sum_insert shn _ j _ {| shn := S sh'; wkn := wk'; at_ := Idle |} Hj'). cbn [shn] in *. slia.
    + cbn [threads upd]. totals (threads w) i {| shn := S sh; wkn := wk; at_ := Idle |} {| shn := sh; wkn := wk; at_ := Idle |} Ht.
      pose proof (sum_insert (ind isF) _ j _ {| shn := S sh'; wkn := wk'; at_ := Idle |} Hj'). ev. slia.
    + unfold has_w. cbn. intros [|]; [done|slia].
  - (* GiveW *)
    destruct wk as [|wk]; [discriminate X|]. destruct (decide (i = j)) as [|D]; [discriminate X|].
    destruct (threads w !! j) as [[sh' wk' p']|] eqn:Hj; [|discriminate X]. cbn [mbind option_bind at_ shn wkn] in X.
    destruct p'; try discriminate X. injection X as <-.
    assert (<[i := {| shn := sh; wkn := wk; at_ := Idle |}]> (threads w) !! j = Some {| shn := sh'; wkn := wk'; at_ := Idle |}) as Hj'
      by (by rewrite list_lookup_insert_ne).
    eapply safe_hand; [exact Sf|exact Ht|exact Hj|exact D|reflexivity|reflexivity|reflexivity|..]; try done.
    + unfold any_handle. cbn [shn wkn at_]. slia.
    + cbn [threads upd]. totals (threads w) i {| shn := sh; wkn := S wk; at_ := Idle |} {| shn := sh; wkn := wk; at_ := Idle |} Ht.
      pose proof (sum_insert shn _ j _ {| shn := sh'; wkn := S wk'; at_ := Idle |} Hj'). cbn [shn] in *. slia.
    + cbn [threads upd]. totals (threads w) i {| shn := sh; wkn := S wk; at_ := Idle |} {| shn := sh; wkn := wk; at_ := Idle |} Ht.
      pose proof (sum_insert (ind isF) _ j _ {| shn := sh'; wkn := S wk'; at_ := Idle |} Hj'). ev. slia.
    + unfold has_s. cbn. intros [|]; [done|slia].
  - (* dispose *)
    pose proof (sum_le (ind isD) _ i _ Ht) as LD. unfold ind in LD at 1. cbn [at_ isD] in LD.
    assert (tot shn w = 0) as S0 by slia.
    assert (there w = true) as T by (apply LT; slia). assert (alive w = true) as A by (apply LA; slia).
    rewrite T, A in X. cbn in X. injection X as <-.
    pose proof (sum_insert shn _ i _ {| shn := sh; wkn := wk; at_ := WeakRel |} Ht) as S2. cbn [shn] in S2.
    eapply safe_own; [exact Sf|exact Ht|reflexivity|reflexivity|..]; cbn [what on_object on_block alive there upd threads sc at_]; try done.
    + unfold any_handle. cbn [shn wkn at_]. by rewrite orb_true_r.
    + slia.
    + intros j u Dj Hj Hu. pose proof (sum_two (ind isD) _ i j _ u (not_eq_sym Dj) Ht Hj) as Q.
      unfold ind in Q at 1 2. rewrite Hu in Q. cbn in Q. slia.
    + intros a x Ha Hx _ _. apply snoc_inv in Ha as [Ha|[-> ->]].
      * destruct (Blk a x Ha Hx T ltac:(slia)) as [O|[O|[[L O]|O]]].
        -- left. by apply freed_app.
        -- right. left. by eapply keep_by.
        -- slia.
        -- right. right. right. by eapply keep_by.
      * right. right. right. by eapply new_by.
    + intros j u Dj Hj Hu. pose proof (sum_le (ind isF) _ j u Hj) as Q. unfold ind in Q at 1. rewrite Hu in Q. cbn in Q. slia.
  - (* WeakRel *)
    pose proof (sum_le (ind isR) _ i _ Ht) as LR. unfold ind in LR at 1. cbn [at_ isR] in LR.
    assert (tot shn w = 0 /\ tot (ind isD) w = 0 /\ tot (ind isR) w = 1) as (S0&D1&Q1) by slia.
    assert (there w = true) as T by (apply LT; slia). rewrite T in X. injection X as <-.
    assert (tot (ind isF) w = 0) as F by slia. rewrite wrap_id by slia.
    assert (forall j u, threads w !! j = Some u -> at_ u <> Free) as NF'.
    { intros j u Hj Hu. pose proof (sum_le (ind isF) _ j u Hj) as Q. unfold ind in Q at 1. rewrite Hu in Q. cbn in Q. slia. }
    assert (sh = 0) as -> by slia.
    destruct (Z.eqb_spec (wc w - 1) 0) as [Z1|Z1].
    + assert (tot wkn w = 0) as W0 by slia.
      pose proof (sum_insert shn _ i _ {| shn := 0; wkn := wk; at_ := Free |} Ht) as S2. cbn [shn] in S2.
      pose proof (sum_insert (ind isF) _ i _ {| shn := 0; wkn := wk; at_ := Free |} Ht) as S3. unfold ind in S3 at 2 4. cbn [at_ isF] in S3.
      eapply safe_own; [exact Sf|exact Ht|reflexivity|reflexivity|..]; cbn [what on_object on_block alive there upd threads sc at_]; try done.
      * unfold any_handle. cbn [shn wkn at_]. by rewrite orb_true_r.
      * slia.
      * intros a x Ha Hx _ Q. exfalso. slia.
      * intros _ a x Ha Hx. apply snoc_inv in Ha as [Ha|[-> ->]]; [|apply (seen_new os tr (Ev i (Rmw Weak false) (sc w)))].
        destruct (Blk a x Ha Hx T F) as [O|[(k0&u&Hk0&Pu&O)|[[L O]|(k0&u&Hk0&Pu&O)]]].
        -- eapply seen_of; [|by left]. by eapply next_freed.
        -- exfalso. pose proof (sum_le wkn _ k0 u Hk0). unfold has_w in Pu. slia.
        -- slia.
        -- assert (k0 = i) as ->; [|by apply seen_app]. unfold ends in Pu. destruct (at_ u) eqn:Eu; try done.
           ++ exfalso. pose proof (sum_le (ind isD) _ k0 u Hk0) as Q. unfold ind in Q at 1. rewrite Eu in Q. cbn in Q. slia.
           ++ eapply (only (ind isR)); [exact Ht|exact Hk0|unfold ind at 2; cbn; slia|unfold ind; rewrite Eu; cbn; slia].
      * intros j u _ Hj Hu. by destruct (NF' j u Hj).
    + pose proof (sum_insert shn _ i _ {| shn := 0; wkn := wk; at_ := Idle |} Ht) as S2. cbn [shn] in S2.
      eapply safe_own; [exact Sf|exact Ht|reflexivity|reflexivity|..]; cbn [what on_object on_block alive there upd threads sc at_]; try done.
      * unfold any_handle. cbn [shn wkn at_]. by rewrite orb_true_r.
      * slia.
      * intros a x Ha Hx _ _. apply snoc_inv in Ha as [Ha|[-> ->]].
        -- destruct (Blk a x Ha Hx T F) as [O|[O|[[L O]|O]]].
           ++ left. by apply freed_app.
           ++ right. left. by eapply keep_by.
           ++ slia.
           ++ eapply (by_step_or os tr _ _ ends (Ev i (Rmw Weak false) (sc w))) in O as [O|O]; [by left|right; right; right; exact O|reflexivity|exact R2|].
              intros k0 u0 Hk0 Hu0. exact (insert_other _ _ _ _ k0 u0 Hk0 Hu0).
        -- left. eapply freed_of; [by left|reflexivity|exact R2].
      * intros j u _ Hj Hu. by destruct (NF' j u Hj).
  - (* Free *)
    pose proof (sum_le (ind isF) _ i _ Ht) as LF. unfold ind in LF at 1. cbn [at_ isF] in LF.
    assert (there w = true) as T by (apply LT; slia). rewrite T in X. injection X as <-.
    pose proof (sum_insert shn _ i _ {| shn := sh; wkn := wk; at_ := Idle |} Ht) as S2. cbn [shn] in S2.
    eapply safe_own; [exact Sf|exact Ht|reflexivity|reflexivity|..]; cbn [what on_object on_block alive there upd threads sc at_]; try done.
    + unfold any_handle. cbn [shn wkn at_]. by rewrite orb_true_r.
    + slia.
    + intros j u Dj Hj Hu. pose proof (sum_two (ind isF) _ i j _ u (not_eq_sym Dj) Ht Hj) as Q.
      unfold ind in Q at 1 2. rewrite Hu in Q. cbn in Q. slia.
Qed.

Lemma label_unlocked a p b : label_of a p = Some b -> is_lock a = false.
Proof. by destruct a. Qed.
Lemma events_safe os l : good os -> forall k w tr es, inv k w -> no_lock w = true -> (Z.of_nat (k + length l) + 3 < 2 ^ 64)%Z ->
  safe os tr w -> events l w = Some es -> exists w', safe os (tr ++ es) w' /\ sched l w = Some (Ok w') /\ inv (k + length l) w' /\ no_lock w' = true.
Proof.
  intros G. induction l as [|[i a] l IH]; intros k w tr es I NL Hk Sf E; cbn [events sched length] in *.
  - simplify_eq. exists w. rewrite app_nil_r, Nat.add_0_r. done.
  - destruct (threads w !! i) as [t|] eqn:Ht; [|done]. cbn [mbind option_bind] in E.
    destruct (label_of a (at_ t)) as [b|] eqn:Hb; [|done]. cbn [mbind option_bind] in E.
    destruct (exec i a w) as [[w'| |]|] eqn:X; try done.
    destruct (events l w') as [es'|] eqn:E'; [|done]. cbn [mbind option_bind] in E. injection E as <-.
    assert (is_lock a = false) as La by (by eapply label_unlocked).
    destruct (exec_ok k i a w (Ok w') I ltac:(lia)) as (w2&Q&I'); [by destruct a|done|]. simplify_eq.
    assert (no_lock w2 = true) as NL' by (by eapply exec_no_lock).
    assert (safe os (tr ++ [Ev i b (sc w2)]) w2) as Sf' by (eapply (safe_step os k i a w w2 t b tr); [exact G|exact I|by destruct a|lia|exact Sf|exact Ht|exact Hb|exact X]).
    destruct (IH (S k) w2 _ es' I' NL' ltac:(lia) Sf' E') as (w3&S3&C3&I3&N3).
    exists w3. rewrite <- app_assoc in S3. replace (k + S (length l)) with (S k + length l) by lia. done.
Qed.
Lemma fresh_safe os n : safe os [Ev 0 Make 1] (fresh n).
Proof.
  assert (seen os [Ev 0 Make 1] 0 0) as S0 by (exists 0, (Ev 0 Make 1); split; [done|]; split; by left).
  assert (forall a x, [Ev 0 Make 1] !! a = Some x -> a = 0) as One by (intros [|[]] x; done).
  assert (by_ os [Ev 0 Make 1] (threads (fresh n)) has_s 0) as B0 by (exists 0; eexists; split; [reflexivity|]; split; [reflexivity|exact S0]).
  assert (forall i t, threads (fresh n) !! i = Some t -> at_ t = Idle) as Id.
  { intros [|i] t Ht; cbn in Ht; [by simplify_eq|]. by apply lookup_replicate in Ht as [-> _]. }
  split.
  - by exists 1%Z.
  - intros a x Ha _. by eapply One.
  - intros [|i] t Ht Pt; [exact S0|]. cbn in Ht. apply lookup_replicate in Ht as [-> _]. discriminate Pt.
  - intros a x Ha _ _. rewrite (One a x Ha). by right.
  - intros a x i t _ _ Ht Hp. by rewrite (Id i t Ht) in Hp.
  - intros a x Ha _ _ _. rewrite (One a x Ha). right. right. left. split; [cbn; lia|by right].
  - intros a x i t _ _ Ht Hp. by rewrite (Id i t Ht) in Hp.
  - intros [|[]] x Ha Hx; cbn in Ha; by simplify_eq.
  - intros [|[]] x Ha Hx; cbn in Ha; by simplify_eq.
  - intros a b x y Ne Ha Hb. by rewrite (One a x Ha), (One b y Hb) in Ne.
Qed.

Theorem no_race os n l tr : good os -> (Z.of_nat (length l) + 4 < 2 ^ 64)%Z -> trace n l = Some tr -> race_free os tr.
Proof.
  intros G Hl E. unfold trace in E. destruct (events l (fresh n)) as [es|] eqn:Ee; [|done]. cbn in E. injection E as <-.
  destruct (events_safe os l G 1 (fresh n) [Ev 0 Make 1] es (inv_fresh n) (fresh_no_lock n) ltac:(lia) (fresh_safe os n) Ee)
    as (w&S&_). by apply f_race in S.
Qed.
(** Every lockless schedule has a trace. *)
Lemma events_total l w w' : lockless l = true -> no_lock w = true -> sched l w = Some (Ok w') -> exists es, events l w = Some es.
Proof.
  revert w. induction l as [|[i a] l IH]; intros w L NL X; cbn [sched events lockless forallb snd] in *; [eauto|].
  apply andb_prop in L as [La L]. destruct (exec i a w) as [[w2| |]|] eqn:E; try done.
  assert (is_lock a = false) as La' by (by destruct (is_lock a)).
  pose proof (exec_no_lock i a w w2 NL La' E) as NL2. destruct (IH w2 L NL2 X) as (es&He).
  assert (exists t, threads w !! i = Some t) as [t Ht] by (unfold exec in E; destruct (threads w !! i); [eauto|done]).
  rewrite Ht. cbn [mbind option_bind].
  assert (exists b, label_of a (at_ t) = Some b) as [b Hb].
  { unfold exec in E. rewrite Ht in E. cbn [mbind option_bind] in E. destruct a; try done; cbn; eauto.
    destruct (at_ t) eqn:P; try done; eauto. rewrite no_lock_spec, Forall_forall in NL.
    specialize (NL t (elem_of_list_lookup_2 _ _ _ Ht)). unfold locking in NL. by rewrite P in NL. }
  rewrite Hb, He. cbn. eauto.
Qed.
Theorem trace_total n l w : lockless l = true -> sched l (fresh n) = Some (Ok w) -> exists tr, trace n l = Some tr.
Proof.
  intros L X. destruct (events_total l (fresh n) w L (fresh_no_lock n) X) as (es&E). unfold trace. rewrite E. cbn. eauto.
Qed.

(** ** Values of use_count() *)
(** the counter is zero only after the last shared handle has gone *)
Record counts (tr : list event) (w : world) : Prop := {
  c_pos a x : tr !! a = Some x -> (0 <= now x)%Z;
  c_zero a x : tr !! a = Some x -> now x = 0%Z -> tot shn w = 0 }.
Lemma events_counts l : forall k w tr es, inv k w -> no_lock w = true -> (Z.of_nat (k + length l) + 3 < 2 ^ 64)%Z ->
  counts tr w -> events l w = Some es -> exists w', counts (tr ++ es) w' /\ sched l w = Some (Ok w').
Proof.
  induction l as [|[i a] l IH]; intros k w tr es I NL Hk C E; cbn [events sched length] in *.
  - simplify_eq. exists w. rewrite app_nil_r. done.
  - destruct (threads w !! i) as [t|] eqn:Ht; [|done]. cbn [mbind option_bind] in E.
    destruct (label_of a (at_ t)) as [b|] eqn:Hb; [|done]. cbn [mbind option_bind] in E.
    destruct (exec i a w) as [[w'| |]|] eqn:X; try done.
    destruct (events l w') as [es'|] eqn:E'; [|done]. cbn [mbind option_bind] in E. injection E as <-.
    assert (is_lock a = false) as La by (by eapply label_unlocked).
    destruct (exec_ok k i a w (Ok w') I ltac:(lia)) as (w2&Q&I'); [by destruct a|done|]. simplify_eq.
    assert (no_lock w2 = true) as NL' by (by eapply exec_no_lock).
    destruct (nums (S k) w2 I' ltac:(lia)) as (N2&_). destruct (nums k w I ltac:(lia)) as (N1&_). specialize (N2 NL'). specialize (N1 NL).
    assert (tot shn w = 0 -> tot shn w2 = 0) as Z.
    { intros Z0. assert (sc w2 = sc w) as Q; [|lia]. pose proof (sum_le shn _ i t Ht) as Ls. rewrite no_lock_spec, Forall_forall in NL.
      specialize (NL t (elem_of_list_lookup_2 _ _ _ Ht)). unfold exec in X. rewrite Ht in X. cbn [mbind option_bind] in X.
      unfold touch, locking in *. destruct a, (at_ t); try discriminate X; try discriminate NL; repeat (case_match; try discriminate X); try lia;
        try (by simplify_eq).
      all: destruct (threads w !! j) as [u|] eqn:Hu; [|done]; cbn [mbind option_bind] in X; destruct (at_ u); try discriminate X; by simplify_eq. }
    destruct (IH (S k) w2 (tr ++ [Ev i b (sc w2)]) es' I' NL' ltac:(lia)) as (w3&C3&X3); [|done|].
    + destruct C as [P0 Z1]. split.
      * intros a0 x Ha. apply snoc_inv in Ha as [Ha|[-> ->]]; [by eapply P0|]. cbn. lia.
      * intros a0 x Ha Hx. apply snoc_inv in Ha as [Ha|[-> ->]]; [by eapply Z, Z1|]. cbn in Hx. lia.
    + exists w3. rewrite <- app_assoc in C3. done.
Qed.

(** A load while its thread holds a shared handle sees at least 1. *)
Lemma events_split l1 l2 w w1 es : sched l1 w = Some (Ok w1) -> events (l1 ++ l2) w = Some es ->
  exists es1 es2, events l1 w = Some es1 /\ events l2 w1 = Some es2 /\ es = es1 ++ es2 /\ length es1 = length l1.
Proof.
  revert w es. induction l1 as [|[i a] l1 IH]; intros w es X E; cbn [sched events app] in *.
  - simplify_eq. by exists [], es.
  - destruct (threads w !! i) as [t|]; [|done]. cbn [mbind option_bind] in *.
    destruct (label_of a (at_ t)) as [b|]; [|done]. cbn [mbind option_bind] in *.
    destruct (exec i a w) as [[w'| |]|]; try done. destruct (events (l1 ++ l2) w') as [es'|] eqn:E'; [|done].
    cbn [mbind option_bind] in E. simplify_eq. destruct (IH w' es' X E') as (e1&e2&H1&H2&->&L). rewrite H1. cbn. exists (Ev i b (sc w') :: e1), e2.
    split; [done|]. split; [done|]. split; [done|]. cbn. by rewrite L.
Qed.
Theorem count_positive os n l1 l2 w tr v : (Z.of_nat (length (l1 ++ l2)) + 4 < 2 ^ 64)%Z -> trace n (l1 ++ l2) = Some tr ->
  sched l1 (fresh n) = Some (Ok w) -> 0 < shared_handles w -> may_read os tr (S (length l1)) v -> (1 <= v)%Z.
Proof.
  intros Hl E X Sh (a&x&Ha&La&_&Hv&_). unfold trace in E. destruct (events (l1 ++ l2) (fresh n)) as [es|] eqn:Ee; [|done]. cbn in E. injection E as <-.
  destruct (events_split l1 l2 _ w es X Ee) as (e1&e2&H1&_&->&L). rewrite app_length in Hl.
  destruct (events_counts l1 1 (fresh n) [Ev 0 Make 1] e1 (inv_fresh n) (fresh_no_lock n) ltac:(lia)) as (w'&[P Z]&X'); [|done|].
  - split; intros [|[]] y Hy; cbn in Hy; try done; simplify_eq; done.
  - rewrite X in X'. injection X' as <-.
    change ([Ev 0 Make 1] ++ e1) with (Ev 0 Make 1 :: e1) in *.
    change (Ev 0 Make 1 :: e1 ++ e2) with ((Ev 0 Make 1 :: e1) ++ e2) in Ha. rewrite lookup_app_l in Ha by (cbn; lia).
    pose proof (P a x Ha). pose proof (Z a x Ha). unfold shared_handles in Sh. lia.
Qed.

(** ** The orders are needed *)
(** a set of events closed under the direct order *)
Definition closed os (tr : list event) (s : list nat) : bool :=
  forallb (fun a => forallb (fun b => implb (match tr !! a, tr !! b with Some x, Some y => (a <? b) && edge os x y | _, _ => false end)
    (existsb (Nat.eqb b) s)) (seq 0 (length tr))) s.
Lemma closed_before os tr s a b : closed os tr s = true -> before os tr a b -> a ∈ s -> b ∈ s.
Proof.
  intros C B. induction B as [a b D|a b c D _ IH]; intros Ha.
  - destruct D as (x&y&Hx&Hy&L&E). unfold closed in C. rewrite forallb_forall in C. specialize (C a ltac:(by apply elem_of_list_In)).
    rewrite forallb_forall in C. specialize (C b ltac:(apply in_seq; apply lookup_lt_Some in Hy; lia)). rewrite Hx, Hy, E in C.
    replace (a <? b) with true in C by (symmetry; by apply Nat.ltb_lt). cbn in C. apply existsb_exists in C as (c&Hc&Q).
    apply Nat.eqb_eq in Q as <-. by apply elem_of_list_In.
  - apply IH. destruct D as (x&y&Hx&Hy&L&E). unfold closed in C. rewrite forallb_forall in C. specialize (C a ltac:(by apply elem_of_list_In)).
    rewrite forallb_forall in C. specialize (C b ltac:(apply in_seq; apply lookup_lt_Some in Hy; lia)). rewrite Hx, Hy, E in C.
    replace (a <? b) with true in C by (symmetry; by apply Nat.ltb_lt). cbn in C. apply existsb_exists in C as (d&Hd&Q).
    apply Nat.eqb_eq in Q as <-. by apply elem_of_list_In.
Qed.
(** Thread 1 gets a shared handle, uses the object and drops the handle; thread 0 drops the last one. *)
Definition two_users : list (nat * action) := [(0, CopyS); (0, GiveS 1); (1, Deref); (1, DropS); (0, DropS); (0, Go)].
Definition two_tr : list event :=
  [Ev 0 Make 1; Ev 0 (Rmw Shared true) 2; Ev 0 (Hand 1) 2; Ev 1 Use 2; Ev 1 (Rmw Shared false) 1; Ev 0 (Rmw Shared false) 0; Ev 0 Destroy 0].
Lemma two_trace : trace 1 two_users = Some two_tr. Proof. reflexivity. Qed.
(** Thread 1 gets a weak handle, asks for use_count() and drops the handle; thread 0 drops its handle and frees the block. *)
Definition one_watcher : list (nat * action) := [(0, CopyWS); (0, GiveW 1); (1, Count); (1, DropW); (0, DropS); (0, Go); (0, Go); (0, Go)].
Definition watch_tr : list event :=
  [Ev 0 Make 1; Ev 0 (Rmw Weak true) 1; Ev 0 (Hand 1) 1; Ev 1 Load 1; Ev 1 (Rmw Weak false) 1; Ev 0 (Rmw Shared false) 0; Ev 0 Destroy 0;
   Ev 0 (Rmw Weak false) 0; Ev 0 FreeBlock 0].
Lemma watch_trace : trace 1 one_watcher = Some watch_tr. Proof. reflexivity. Qed.

Lemma needs_s os : acquires (dec_s os) && releases (dec_s os) = false -> ~ race_free os two_tr.
Proof.
  intros N R. destruct (R 3 6 (Ev 1 Use 2) (Ev 0 Destroy 0) ltac:(done) eq_refl eq_refl) as (_&B&_). specialize (B eq_refl eq_refl).
  assert (closed os two_tr [3; 4] = true) as C.
  { unfold closed. cbn. rewrite andb_comm in N. rewrite N. done. }
  pose proof (closed_before os two_tr _ _ _ C B ltac:(set_solver)) as Q. set_solver.
Qed.
Lemma needs_w os : acquires (dec_w os) && releases (dec_w os) = false -> ~ race_free os watch_tr.
Proof.
  intros N R. destruct (R 3 8 (Ev 1 Load 1) (Ev 0 FreeBlock 0) ltac:(done) eq_refl eq_refl) as (_&_&B). specialize (B eq_refl eq_refl).
  assert (closed os watch_tr [3; 4] = true) as C.
  { unfold closed. cbn. rewrite andb_comm in N. rewrite N. done. }
  pose proof (closed_before os watch_tr _ _ _ C B ltac:(set_solver)) as Q. set_solver.
Qed.
Theorem orders_exact os :
  (forall n l tr, (Z.of_nat (length l) + 4 < 2 ^ 64)%Z -> trace n l = Some tr -> race_free os tr) <->
  acquires (dec_s os) && releases (dec_s os) && acquires (dec_w os) && releases (dec_w os) = true.
Proof.
  split.
  - intros H. pose proof (H 1 two_users two_tr eq_refl two_trace) as H1. pose proof (H 1 one_watcher watch_tr eq_refl watch_trace) as H2.
    destruct (acquires (dec_s os) && releases (dec_s os)) eqn:E1; [|by destruct (needs_s os E1)].
    destruct (acquires (dec_w os) && releases (dec_w os)) eqn:E2; [|by destruct (needs_w os E2)]. cbn. exact E2.
  - intros H n l tr Hl E. eapply no_race; [|exact Hl|exact E]. unfold good. rewrite !andb_true_iff in H. tauto.
Qed.

(** ** use_count() = 1 does not mean that the other users are done *)
Definition alone : list (nat * action) := [(0, CopyS); (0, GiveS 1); (1, Deref); (1, DropS); (0, Count)].
Definition alone_tr : list event :=
  [Ev 0 Make 1; Ev 0 (Rmw Shared true) 2; Ev 0 (Hand 1) 2; Ev 1 Use 2; Ev 1 (Rmw Shared false) 1; Ev 0 Load 1].
Lemma alone_trace : trace 1 alone = Some alone_tr. Proof. reflexivity. Qed.
Theorem alone_races os : may_read os alone_tr 5 1 /\ may_read os alone_tr 5 2 /\ ~ before os alone_tr 3 5.
Proof.
  assert (closed os alone_tr [3; 4] = true) as C by done.
  split; [|split].
  - exists 4. eexists. split; [reflexivity|]. split; [lia|]. split; [done|]. split; [done|]. intros (m&y&Hm&L&W&_).
    destruct m as [|[|[|[|[|[|m]]]]]]; cbn in Hm; try lia; simplify_eq; done.
  - exists 1. eexists. split; [reflexivity|]. split; [lia|]. split; [done|]. split; [done|]. intros (m&y&Hm&L&W&B).
    destruct m as [|[|[|[|[|[|m]]]]]]; cbn in Hm; try lia; simplify_eq; try done.
    pose proof (closed_before os alone_tr _ _ _ C B ltac:(set_solver)) as Q. set_solver.
  - intros B. pose proof (closed_before os alone_tr _ _ _ C B ltac:(set_solver)) as Q. set_solver.
Qed.
Theorem alone_refuted os : trace 1 alone = Some alone_tr /\ may_read os alone_tr 5 1 /\ may_read os alone_tr 5 2 /\ ~ before os alone_tr 3 5.
Proof. split; [exact alone_trace|apply alone_races]. Qed.
Theorem code_race_free n l w : lockless l = true -> (Z.of_nat (length l) + 4 < 2 ^ 64)%Z -> sched l (fresh n) = Some (Ok w) ->
  exists tr, trace n l = Some tr /\ race_free code_orders tr.
Proof.
  intros L Hl X. destruct (trace_total n l w L X) as (tr&E). exists tr. split; [exact E|]. eapply no_race; [|exact Hl|exact E]. repeat split.
Qed.
