(** Proofs for LockSpec.v. *)
From stdpp Require Import list list_numbers.
From Coq Require Import ZArith Lia ZifyBool ZifyNat.
From Verif Require Import Base ThreadsModel ThreadsSpec ThreadsProofs LockSpec.
Local Open Scope nat_scope.

(** *** The ledger *)
Definition mz : Z := (2 ^ 64)%Z.
Lemma wrap_k z : exists k, wrap z = (z + k * mz)%Z.
Proof. exists (- (z / mz))%Z. unfold wrap. fold mz. pose proof (Z.div_mod z mz ltac:(discriminate)). lia. Qed.
Definition gap (w : world) : Z := (sc w - Z.of_nat (shared_handles w))%Z.

Definition gain (i : nat) (a : action) (w : world) : Z :=
  match exchange i a w with Some true => 1 | Some false => -1 | None => 0 end%Z.

Lemma exec_drift i a w w' : exec i a w = Some (Ok w') -> exists k, gap w' = (gap w + gain i a w + k * mz)%Z.
Proof.
  intros X. unfold exec in X. unfold gain, exchange. destruct (threads w !! i) as [t|] eqn:Ht; [|done].
  cbn [mbind option_bind] in X. unfold touch in X. unfold gap, shared_handles.
  assert (K : forall t', Z.of_nat (sum_list_with shn (<[i := t']> (threads w))) =
     (Z.of_nat (sum_list_with shn (threads w)) - Z.of_nat (shn t) + Z.of_nat (shn t'))%Z).
  { intros t'. pose proof (sum_insert shn (threads w) i t t' Ht). lia. }
  destruct t as [sh wk p]. cbn [shn wkn at_] in X. cbn [shn] in K.
  destruct a, p; try discriminate X; cbn [at_].
  - destruct (0 <? sh); [|discriminate]. destruct (there w); [|discriminate]. injection X as <-. cbn [sc threads upd]. rewrite K. cbn [shn].
    destruct (wrap_k (sc w + 1)) as [k ->]. exists k. lia.
  - destruct (0 <? sh); [|discriminate]. destruct (there w); [|discriminate]. injection X as <-. cbn [sc threads upd]. rewrite K. cbn [shn].
    exists 0%Z. lia.
  - destruct (0 <? wk); [|discriminate]. destruct (there w); [|discriminate]. injection X as <-. cbn [sc threads upd]. rewrite K. cbn [shn].
    exists 0%Z. lia.
  - destruct sh as [|sh]; [discriminate|]. destruct (there w); [|discriminate]. injection X as <-. cbn [sc threads upd]. rewrite K. cbn [shn].
    destruct (wrap_k (sc w - 1)) as [k ->]. exists k. lia.
  - destruct wk as [|wk]; [discriminate|]. destruct (there w); [|discriminate]. injection X as <-. cbn [sc threads upd]. rewrite K. cbn [shn].
    exists 0%Z. lia.
  - destruct (0 <? sh); [|discriminate]. destruct (alive w); [|discriminate]. injection X as <-. exists 0%Z. lia.
  - destruct (0 <? sh + wk); [|discriminate]. destruct (there w); [|discriminate]. injection X as <-. exists 0%Z. lia.
  - destruct sh as [|sh]; [discriminate|]. destruct (decide (i = j)) as [|D]; [discriminate|].
    destruct (threads w !! j) as [u|] eqn:Hu; [|discriminate]. cbn [mbind option_bind] in X. destruct u as [sh' wk' p']. cbn [at_ shn wkn] in X. destruct p'; try discriminate X.
    injection X as <-. cbn [sc threads upd].
    assert (Hj' : <[i := {| shn := sh; wkn := wk; at_ := Idle |}]> (threads w) !! j = Some {| shn := sh'; wkn := wk'; at_ := Idle |}) by (by rewrite list_lookup_insert_ne).
    pose proof (sum_insert shn _ j _ {| shn := S sh'; wkn := wk'; at_ := Idle |} Hj') as K2.
    pose proof (K {| shn := sh; wkn := wk; at_ := Idle |}) as K3. cbn [shn] in *. exists 0%Z. lia.
  - destruct wk as [|wk]; [discriminate|]. destruct (decide (i = j)) as [|D]; [discriminate|].
    destruct (threads w !! j) as [u|] eqn:Hu; [|discriminate]. cbn [mbind option_bind] in X. destruct u as [sh' wk' p']. cbn [at_ shn wkn] in X. destruct p'; try discriminate X.
    injection X as <-. cbn [sc threads upd].
    assert (Hj' : <[i := {| shn := sh; wkn := wk; at_ := Idle |}]> (threads w) !! j = Some {| shn := sh'; wkn := wk'; at_ := Idle |}) by (by rewrite list_lookup_insert_ne).
    pose proof (sum_insert shn _ j _ {| shn := sh'; wkn := S wk'; at_ := Idle |} Hj') as K2.
    pose proof (K {| shn := sh; wkn := wk; at_ := Idle |}) as K3. cbn [shn] in *. exists 0%Z. lia.
  - destruct (0 <? wk); [|discriminate]. destruct (there w); [|discriminate]. injection X as <-. cbn [sc threads upd]. rewrite K. cbn [shn]. exists 0%Z. lia.
  - destruct (there w && alive w); [|discriminate]. injection X as <-. cbn [sc threads]. rewrite K. cbn [shn]. exists 0%Z. lia.
  - destruct (there w); [|discriminate]. injection X as <-. cbn [sc threads upd]. rewrite K. cbn [shn]. exists 0%Z. lia.
  - destruct (there w); [|discriminate]. injection X as <-. cbn [sc threads]. rewrite K. cbn [shn]. exists 0%Z. lia.
  - destruct (count =? 0)%Z.
    + injection X as <-. cbn [sc threads upd]. rewrite K. cbn [shn]. exists 0%Z. lia.
    + destruct (Z.eqb_spec (sc w) count) as [E|E]; (destruct (there w); [|discriminate]); injection X as <-; cbn [sc threads upd]; rewrite K; cbn [shn].
      * destruct (wrap_k (count + 1)) as [k ->]. exists k. lia.
      * exists 0%Z. lia.
Qed.
Lemma sched_drift l : forall w w', sched l w = Some (Ok w') -> exists k, gap w' = (gap w + drift l w + k * mz)%Z.
Proof.
  induction l as [|[i a] l IH]; intros w w' X; cbn [sched drift] in *.
  - injection X as <-. exists 0%Z. lia.
  - fold (gain i a w). destruct (exec i a w) as [[w1| |]|] eqn:E; try discriminate X.
    destruct (IH _ _ X) as [k K]. destruct (exec_drift _ _ _ _ E) as [k' K']. exists (k + k')%Z. rewrite K, K'. lia.
Qed.
Lemma exec_range i a w w' : exec i a w = Some (Ok w') -> (0 <= sc w < mz)%Z -> (0 <= sc w' < mz)%Z.
Proof.
  intros X R. assert (B : forall z, (0 <= wrap z < mz)%Z) by (intros z; apply Z.mod_pos_bound; reflexivity).
  unfold exec in X. destruct (threads w !! i) as [t|]; [|done]. cbn [mbind option_bind] in X. unfold touch in X.
  destruct a, (at_ t); try discriminate X; repeat (case_match; try discriminate X); simplify_eq; cbn [sc upd]; try done; try apply B.
  all: destruct (threads w !! j) as [u|]; [|done]; cbn [mbind option_bind] in X; destruct (at_ u); try discriminate X; simplify_eq; done.
Qed.
Lemma sched_range l : forall w w', sched l w = Some (Ok w') -> (0 <= sc w < mz)%Z -> (0 <= sc w' < mz)%Z.
Proof.
  induction l as [|[i a] l IH]; intros w w' X R; cbn [sched] in *; [by simplify_eq|].
  destruct (exec i a w) as [[w1| |]|] eqn:E; try discriminate X. eapply IH; [exact X|]. by eapply exec_range.
Qed.
Lemma lock_ledger n l w : sched l (fresh n) = Some (Ok w) -> sc w = wrap (Z.of_nat (shared_handles w) + drift l (fresh n)).
Proof.
  intros X. destruct (sched_drift _ _ _ X) as [k K]. pose proof (sched_range _ _ _ X) as R.
  assert (G : gap (fresh n) = 0%Z).
  { unfold gap, shared_handles, fresh. cbn [sc threads sum_list_with]. cbn [shn].
    assert (Z : sum_list_with shn (replicate n {| shn := 0; wkn := 0; at_ := Idle |}) = 0) by (clear; induction n; done).
    rewrite Z. done. }
  rewrite G in K. unfold gap in K. unfold wrap. fold mz. replace (Z.of_nat (shared_handles w) + drift l (fresh n))%Z with (sc w + (- k) * mz)%Z by lia.
  rewrite Z.mod_add by discriminate. symmetry. apply Z.mod_small. apply R. cbn [sc fresh]. unfold mz. lia.
Qed.

(** *** Locks that count once each *)
Definition total (g : nat -> nat) (n : nat) : nat := sum_list_with g (seq 0 n).
Lemma total_S g n : total g (S n) = total g n + g n.
Proof. unfold total. rewrite seq_S, sum_list_with_app. cbn. lia. Qed.
Lemma total_set g i x n : total (set_at g i x) n + (if decide (i < n) then g i else 0) = total g n + (if decide (i < n) then x else 0).
Proof.
  induction n as [|n IH]; [cbn; repeat case_decide; lia|]. rewrite !total_S. unfold set_at at 2.
  repeat case_decide; subst; lia.
Qed.
Lemma total_le g i n : i < n -> g i <= total g n.
Proof. induction n as [|n IH]; intros H; [lia|]. rewrite total_S. destruct (decide (i = n)) as [->|]; [lia|]. specialize (IH ltac:(lia)). lia. Qed.

Record num2 (S W D R F G k : nat) (w : world) : Prop := {
  m_sc : sc w = (Z.of_nat S + Z.of_nat G)%Z;
  m_own : (if 0 <? S + G then 1 else 0) + D + R <= 1;
  m_wc : wc w = (Z.of_nat W + Z.of_nat ((if 0 <? S + G then 1 else 0) + D + R)%nat)%Z;
  m_alive : alive w = ((0 <? S + G) || (0 <? D));
  m_there : there w = ((0 <? W + S + G + D + R) || (0 <? F));
  m_F : F <= 1; m_F0 : F = 1 -> W + S + G + D + R = 0;
  m_des : ndes w = if alive w then 0 else 1;
  m_fre : nfre w = if there w then 0 else 1;
  m_k : S + W + G <= k }.
Record inv2 (k : nat) (g : nat -> nat) (w : world) : Prop := {
  j_num : num2 (tot shn w) (tot wkn w) (tot (ind isD) w) (tot (ind isR) w) (tot (ind isF) w) (total g (length (threads w))) k w;
  j_lock i t c : threads w !! i = Some t -> at_ t = Locking c -> 0 < wkn t /\ (c = 0%Z -> g i = 0);
  j_idle i t : threads w !! i = Some t -> locking t = false -> g i = 0 }.

(** The threads around the one that moves. *)
Lemma frame_lock (ths : list thread) (g g' : nat -> nat) i t t' :
  (forall j u c, ths !! j = Some u -> at_ u = Locking c -> 0 < wkn u /\ (c = 0%Z -> g j = 0)) ->
  (forall j u, ths !! j = Some u -> locking u = false -> g j = 0) ->
  ths !! i = Some t -> (forall j, j <> i -> g' j = g j) ->
  (forall c, at_ t' = Locking c -> 0 < wkn t' /\ (c = 0%Z -> g' i = 0)) -> (locking t' = false -> g' i = 0) ->
  (forall j u c, <[i := t']> ths !! j = Some u -> at_ u = Locking c -> 0 < wkn u /\ (c = 0%Z -> g' j = 0)) /\
  (forall j u, <[i := t']> ths !! j = Some u -> locking u = false -> g' j = 0).
Proof.
  intros L I E Fg H1 H2. split.
  - intros j u c Hj Hu. destruct (decide (i = j)) as [->|D].
    + rewrite list_lookup_insert in Hj by (by eapply lookup_lt_Some). simplify_eq. by apply H1.
    + rewrite list_lookup_insert_ne in Hj by done. rewrite Fg by done. by eapply L.
  - intros j u Hj Hu. destruct (decide (i = j)) as [->|D].
    + rewrite list_lookup_insert in Hj by (by eapply lookup_lt_Some). simplify_eq. by apply H2.
    + rewrite list_lookup_insert_ne in Hj by done. rewrite Fg by done. by eapply I.
Qed.

Ltac totals5 ths i t t' E :=
  pose proof (sum_insert shn ths i t t' E); pose proof (sum_insert wkn ths i t t' E);
  pose proof (sum_insert (ind isD) ths i t t' E); pose proof (sum_insert (ind isR) ths i t t' E);
  pose proof (sum_insert (ind isF) ths i t t' E).
Ltac numeric2 := ev; repeat match goal with H : forall _ : nat, _ |- _ => clear H | H : forall _ : Z, _ |- _ => clear H | H : forall _ : (forall _ : Z, _), _ |- _ => clear H end; split; cbn [sc wc alive there ndes nfre threads upd];
  repeat match goal with H : there ?w = _ |- _ => revert H | H : alive ?w = _ |- _ => revert H end;
  intros; try lia; try (repeat case_match; lia).
(** Thread [i] from [t] to [t'], ghost to [g']. *)
Ltac goes g g' i t t' Ht Lk Id :=
  let ths := match type of Ht with ?l !! _ = _ => l end in
  totals5 ths i t t' Ht; ev;
  let A := fresh "A" in let B := fresh "B" in
  assert (A : forall j, j <> i -> g' j = g j);
  [|pose proof (frame_lock ths g g' i t t' Lk Id Ht A) as B; split; [cbn [threads upd]; rewrite ?insert_length| |]].

Lemma exec2 k g i a w r : inv2 k g w -> (Z.of_nat k + 3 < 2 ^ 64)%Z ->
  exec i a w = Some r -> exists w', r = Ok w' /\ (honest_step g i a w = true -> inv2 (S k) (tally g i a w) w').
Proof.
  intros [N Lk Id] Hk X. unfold exec in X. unfold honest_step, tally, exchange. destruct (threads w !! i) as [t|] eqn:Ht; [|done]. cbn [mbind option_bind] in X.
  destruct t as [sh wk p]. cbn [shn wkn at_] in X. cbn [at_].
  pose proof (fun c e => Lk i _ c Ht e) as Lp. pose proof (Id i _ Ht) as Ip. cbn [at_ wkn] in Lp. unfold locking in Ip. cbn [at_] in Ip.
  pose proof (lookup_lt_Some _ _ _ Ht) as Hlen.
  pose proof (total_le g i _ Hlen) as Hgi.
  pose proof (fun x => total_set g i x (length (threads w))) as Gs. 
  assert (Gs' : forall x, total (set_at g i x) (length (threads w)) + g i = total g (length (threads w)) + x).
  { intros x. specialize (Gs x). repeat case_decide; lia. } clear Gs.
  lower (threads w) i {| shn := sh; wkn := wk; at_ := p |} Ht. cbn [shn wkn] in *.
  destruct N as [Nsc Nown Nwc Nal Nth NF NF0 Nde Nfr Nk].
  assert (0 < sh + wk -> there w = true) as TH by (intros; rewrite Nth; lia).
  destruct a, p; try discriminate X; cbn [at_].
  - (* CopyS *)
    destruct (Nat.ltb_spec 0 sh); [|discriminate X]. unfold touch in X. rewrite TH in X by lia. injection X as <-.
    rewrite wrap_id by lia. eexists. split; [reflexivity|]. intros _.
    goes g g i {| shn := sh; wkn := wk; at_ := Idle |} {| shn := S sh; wkn := wk; at_ := Idle |} Ht Lk Id; [done|numeric2|apply B; done..].
  - (* CopyWS *)
    destruct (Nat.ltb_spec 0 sh); [|discriminate X]. unfold touch in X. rewrite TH in X by lia. injection X as <-.
    rewrite wrap_id by lia. eexists. split; [reflexivity|]. intros _.
    goes g g i {| shn := sh; wkn := wk; at_ := Idle |} {| shn := sh; wkn := S wk; at_ := Idle |} Ht Lk Id; [done|numeric2|apply B; done..].
  - (* CopyW *)
    destruct (Nat.ltb_spec 0 wk); [|discriminate X]. unfold touch in X. rewrite TH in X by lia. injection X as <-.
    rewrite wrap_id by lia. eexists. split; [reflexivity|]. intros _.
    goes g g i {| shn := sh; wkn := wk; at_ := Idle |} {| shn := sh; wkn := S wk; at_ := Idle |} Ht Lk Id; [done|numeric2|apply B; done..].
  - (* DropS *)
    destruct sh as [|sh]; [discriminate X|]. unfold touch in X. rewrite TH in X by lia. injection X as <-.
    rewrite wrap_id by lia. eexists. split; [reflexivity|]. intros _. destruct (Z.eqb_spec (sc w - 1) 0).
    + goes g g i {| shn := S sh; wkn := wk; at_ := Idle |} {| shn := sh; wkn := wk; at_ := Dispose |} Ht Lk Id; [done|numeric2|apply B; done..].
    + goes g g i {| shn := S sh; wkn := wk; at_ := Idle |} {| shn := sh; wkn := wk; at_ := Idle |} Ht Lk Id; [done|numeric2|apply B; done..].
  - (* DropW *)
    destruct wk as [|wk]; [discriminate X|]. unfold touch in X. rewrite TH in X by lia. injection X as <-.
    rewrite wrap_id by lia. eexists. split; [reflexivity|]. intros _. destruct (Z.eqb_spec (wc w - 1) 0).
    + goes g g i {| shn := sh; wkn := S wk; at_ := Idle |} {| shn := sh; wkn := wk; at_ := Free |} Ht Lk Id; [done|numeric2|apply B; done..].
    + goes g g i {| shn := sh; wkn := S wk; at_ := Idle |} {| shn := sh; wkn := wk; at_ := Idle |} Ht Lk Id; [done|numeric2|apply B; done..].
  - (* Deref *)
    destruct (Nat.ltb_spec 0 sh); [|discriminate X].
    assert (alive w = true) as AL by (rewrite Nal; lia). rewrite AL in X. injection X as <-.
    eexists. split; [reflexivity|]. intros _. split; [numeric2|done|done].
  - (* Count *)
    destruct (Nat.ltb_spec 0 (sh + wk)); [|discriminate X]. unfold touch in X. rewrite TH in X by lia. injection X as <-.
    eexists. split; [reflexivity|]. intros _. split; [numeric2|done|done].
  - (* GiveS *)
    destruct sh as [|sh]; [discriminate X|]. destruct (decide (i = j)) as [|D]; [discriminate X|].
    destruct (threads w !! j) as [[sh' wk' p']|] eqn:Hj; [|discriminate X]. cbn [mbind option_bind at_ shn wkn] in X.
    destruct p'; try discriminate X. injection X as <-. eexists. split; [reflexivity|]. intros _.
    assert (<[i := {| shn := sh; wkn := wk; at_ := Idle |}]> (threads w) !! j = Some {| shn := sh'; wkn := wk'; at_ := Idle |}) as Hj' by (by rewrite list_lookup_insert_ne).
    totals5 (threads w) i {| shn := S sh; wkn := wk; at_ := Idle |} {| shn := sh; wkn := wk; at_ := Idle |} Ht.
    destruct (frame_lock (threads w) g g i _ {| shn := sh; wkn := wk; at_ := Idle |} Lk Id Ht) as [Lk2 Id2]; [done|done|intros _; apply (Ip eq_refl)|].
    pose proof (Id2 j _ Hj' eq_refl) as Gj.
    goes g g j {| shn := sh'; wkn := wk'; at_ := Idle |} {| shn := S sh'; wkn := wk'; at_ := Idle |} Hj' Lk2 Id2; [done|numeric2|apply B; done..].
  - (* GiveW *)
    destruct wk as [|wk]; [discriminate X|]. destruct (decide (i = j)) as [|D]; [discriminate X|].
    destruct (threads w !! j) as [[sh' wk' p']|] eqn:Hj; [|discriminate X]. cbn [mbind option_bind at_ shn wkn] in X.
    destruct p'; try discriminate X. injection X as <-. eexists. split; [reflexivity|]. intros _.
    assert (<[i := {| shn := sh; wkn := wk; at_ := Idle |}]> (threads w) !! j = Some {| shn := sh'; wkn := wk'; at_ := Idle |}) as Hj' by (by rewrite list_lookup_insert_ne).
    totals5 (threads w) i {| shn := sh; wkn := S wk; at_ := Idle |} {| shn := sh; wkn := wk; at_ := Idle |} Ht.
    destruct (frame_lock (threads w) g g i _ {| shn := sh; wkn := wk; at_ := Idle |} Lk Id Ht) as [Lk2 Id2]; [done|done|intros _; apply (Ip eq_refl)|].
    pose proof (Id2 j _ Hj' eq_refl) as Gj.
    goes g g j {| shn := sh'; wkn := wk'; at_ := Idle |} {| shn := sh'; wkn := S wk'; at_ := Idle |} Hj' Lk2 Id2; [done|numeric2|apply B; done..].
  - (* LockW *)
    destruct (Nat.ltb_spec 0 wk); [|discriminate X]. unfold touch in X. rewrite TH in X by lia. injection X as <-.
    eexists. split; [reflexivity|]. intros _.
    goes g g i {| shn := sh; wkn := wk; at_ := Idle |} {| shn := sh; wkn := wk; at_ := Locking (sc w) |} Ht Lk Id; [done|numeric2|apply B; [intros c Hc; split; [cbn; lia|intros _; by apply Ip]|done]..].
  - (* dispose *)
    ev. assert (there w = true) as TH' by (rewrite Nth; lia). assert (alive w = true) as AL by (rewrite Nal; lia).
    rewrite TH', AL in X. cbn [andb] in X. injection X as <-. eexists. split; [reflexivity|]. intros _.
    goes g g i {| shn := sh; wkn := wk; at_ := Dispose |} {| shn := sh; wkn := wk; at_ := WeakRel |} Ht Lk Id; [done|numeric2|apply B; done..].
  - (* weak_release of the last shared handle *)
    ev. assert (there w = true) as TH' by (rewrite Nth; lia). unfold touch in X. rewrite TH' in X. injection X as <-.
    rewrite wrap_id by lia. eexists. split; [reflexivity|]. intros _. destruct (Z.eqb_spec (wc w - 1) 0).
    + goes g g i {| shn := sh; wkn := wk; at_ := WeakRel |} {| shn := sh; wkn := wk; at_ := Free |} Ht Lk Id; [done|numeric2|apply B; done..].
    + goes g g i {| shn := sh; wkn := wk; at_ := WeakRel |} {| shn := sh; wkn := wk; at_ := Idle |} Ht Lk Id; [done|numeric2|apply B; done..].
  - (* distory *)
    ev. assert (there w = true) as TH' by (rewrite Nth; lia). rewrite TH' in X. injection X as <-.
    eexists. split; [reflexivity|]. intros _.
    goes g g i {| shn := sh; wkn := wk; at_ := Free |} {| shn := sh; wkn := wk; at_ := Idle |} Ht Lk Id; [done|numeric2|apply B; done..].
  - (* lock *)
    destruct (Lp count eq_refl) as [Hw Hc0].
    destruct (Z.eqb_spec count 0) as [C|C].
    + injection X as <-. eexists. split; [reflexivity|]. intros _. specialize (Hc0 C).
      goes g g i {| shn := sh; wkn := wk; at_ := Locking count |} {| shn := sh; wkn := wk; at_ := Idle |} Ht Lk Id; [done|numeric2|apply B; done..].
    + unfold touch in X. rewrite TH in X by lia. destruct (Z.eqb_spec (sc w) count) as [E|E].
      * injection X as <-. rewrite wrap_id by lia. eexists. split; [reflexivity|]. intros _.
        pose proof (Gs' (S (g i))).
        goes g (set_at g i (S (g i))) i {| shn := sh; wkn := wk; at_ := Locking count |} {| shn := sh; wkn := wk; at_ := Locking count |} Ht Lk Id.
        -- intros j D. unfold set_at. by rewrite decide_False.
        -- numeric2.
        -- apply B; [|done]. intros c Hc. injection Hc as <-. split; [done|]. intros Z0. by destruct C.
        -- apply B; [|done]. intros c Hc. injection Hc as <-. split; [done|]. intros Z0. by destruct C.
      * injection X as <-. eexists. split; [reflexivity|]. intros Hh%Nat.eqb_eq.
        pose proof (Gs' 0).
        goes g (set_at g i 0) i {| shn := sh; wkn := wk; at_ := Locking count |} {| shn := S sh; wkn := wk; at_ := Idle |} Ht Lk Id.
        -- intros j D. unfold set_at. by rewrite decide_False.
        -- numeric2.
        -- apply B; [done|]. intros _. unfold set_at. by rewrite decide_True.
        -- apply B; [done|]. intros _. unfold set_at. by rewrite decide_True.
Qed.

Lemma sched2 l : forall k g w r, inv2 k g w -> (Z.of_nat (k + length l) + 3 < 2 ^ 64)%Z -> honest g l w = true ->
  sched l w = Some r -> exists w' g' k', r = Ok w' /\ inv2 k' g' w' /\ k' <= k + length l.
Proof.
  induction l as [|[i a] l IH]; intros k g w r I Hk U X; cbn [sched honest length] in *.
  - simplify_eq. exists w, g, k. split; [done|]. split; [done|lia].
  - apply andb_prop in U as [Q U]. destruct (exec i a w) as [r0|] eqn:E; [|done].
    destruct (exec2 k g i a w r0 I ltac:(lia) E) as (w'&->&I').
    destruct (IH (S k) _ w' r (I' Q) ltac:(lia) U X) as (w2&g2&k2&->&I2&?). exists w2, g2, k2. split; [done|]. split; [done|lia].
Qed.
Lemma inv2_fine k g w : inv2 k g w -> (Z.of_nat k + 3 < 2 ^ 64)%Z -> fine w.
Proof.
  intros I Hk. pose proof I as [N Lk Id]. destruct N as [Nsc Nown Nwc Nal Nth NF NF0 Nde Nfr Nk].
  unfold shared_handles, weak_handles. split; unfold shared_handles, weak_handles.
  - intros H. assert (alive w = true) as A by (rewrite Nal; lia). by rewrite Nde, A.
  - intros H. assert (there w = true) as A by (rewrite Nth; lia). by rewrite Nfr, A.
  - done.
  - rewrite Nth, Nal. lia.
  - intros St. unfold settled in St.
    assert (G0 : total g (length (threads w)) = 0).
    { assert (Z : forall n, n <= length (threads w) -> total g n = 0).
      { induction n as [|n IH]; intros H; [done|]. rewrite total_S, IH by lia. destruct (lookup_lt_is_Some_2 (threads w) n ltac:(lia)) as [t Ht].
        rewrite (Id n t Ht); [done|]. unfold locking. rewrite Forall_forall in St. by rewrite (St t (elem_of_list_lookup_2 _ _ _ Ht)). }
      by apply Z. }
    rewrite Nal, Nth, G0, (ind_idle isD), (ind_idle isR), (ind_idle isF) by done. lia.
  - intros i t Ht Hp.
    assert (exists r, exec i Go w = Some r) as [r X].
    { unfold exec. rewrite Ht. cbn. destruct (at_ t) eqn:E; try done; unfold touch; eauto.
      destruct (count =? 0)%Z; [eauto|]. destruct (sc w =? count)%Z; eauto. }
    destruct (exec2 k g i Go w r I Hk X) as (w'&->&_). eauto.
Qed.
Lemma inv2_fresh n : inv2 1 (fun _ => 0) (fresh n).
Proof.
  assert (forall f : thread -> nat, f {| shn := 0; wkn := 0; at_ := Idle |} = 0 ->
    sum_list_with f (replicate n {| shn := 0; wkn := 0; at_ := Idle |}) = 0) as Z.
  { intros f Hf. induction n as [|n IH]; [done|]. cbn. rewrite Hf, IH. done. }
  assert (Z' : forall m, total (fun _ => 0) m = 0).
  { induction m as [|m IH]; [done|]. rewrite total_S, IH. done. }
  split.
  - rewrite Z'. unfold fresh. cbn [threads sum_list_with]. rewrite !Z by done. cbn. split; cbn; done || lia.
  - intros i t c Ht Hp. exfalso. destruct i as [|i]; cbn in Ht; [by simplify_eq|].
    apply lookup_replicate in Ht as [-> _]. done.
  - done.
Qed.
Theorem honest_fine n l r : honest (fun _ => 0) l (fresh n) = true -> (Z.of_nat (length l) + 4 < 2 ^ 64)%Z ->
  sched l (fresh n) = Some r -> exists w, r = Ok w /\ fine w.
Proof.
  intros U Hl X. destruct (sched2 l 1 _ (fresh n) r (inv2_fresh n) ltac:(lia) U X) as (w&g&k&->&I&?).
  exists w. split; [done|]. eapply inv2_fine; [exact I|lia].
Qed.
